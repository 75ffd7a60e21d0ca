(** * C75: calling any trait on any node *)
From Coq Require Import Lia.
From Verif Require Import SpecTree SpecWild ProofText ProofName ProofInv ProofSteps ProofOps ProofTree ProofInsert PropFactory PropElem ProofWildInv ProofWildSteps ProofWildOps.

(** Untyped histories include the typed ones. *)
Theorem C75_typed_included : forall h, reachable h -> wild h.
Proof. intros h H. induction H as [|h o h' _ IH (_ & Hs)]; [constructor|]. by eapply wild_step. Qed.
Print Assumptions C75_typed_included.

(** An element (2) made by an element (1), given a child by the same element and put under it; an attribute value set on
    element 1; a text split in two. *)
Definition ex_wild_ops : list op :=
  [OCreateDocument None (Some (lit "r")) None options_new; OCreateElement 1 (lit "e"); OCreateText 1 (lit "ab"); OAppendChild 2 3;
   OAppendChild 1 2; OAttrSetValue 1 (lit "v"); OCreateAttributeWith 1 (lit "a") (lit "w"); OSetAttributeNode 2 6; OSplit 3 1; OAppendData 1 (lit "x");
   OCreateDocument None None (Some 2) options_new].
Definition ex_wild : heap := default empty_heap (wrun env0 ex_wild_ops empty_heap).
Example ex_wild_wild : wild ex_wild.
Proof. apply (wrun0_wild ex_wild_ops). by vm_compute. Qed.
Example ex_wild_shape : child_nodes ex_wild 0 = Ok [1] /\ child_nodes ex_wild 1 = Ok [4] /\ child_nodes ex_wild 2 = Ok [3; 7] /\
  attributes ex_wild 2 = Ok [(mkName None None (lit "a"), 6)] /\ owner_document ex_wild 2 = Ok (Some 1) /\ owner_document ex_wild 6 = Ok (Some 1) /\
  append_child 1 2 ex_wild = (ex_wild, Err WrongDocument) /\ doc_type ex_wild 8 = Ok (Some 2).
Proof. by vm_compute. Qed.
(** No typed history makes this state. *)
Example ex_wild_untyped : run env0 ex_wild_ops empty_heap = None. Proof. by vm_compute. Qed.

(** ** What still holds *)
Theorem C75_child_types : forall h p c l tp, wild h -> child_nodes h p = Ok l -> In c l -> node_type_of h p = Ok tp ->
  exists tc, node_type_of h c = Ok tc /\ In tc (permitted_children tp).
Proof.
  intros h p c l tp Hr (np & Hp & <-)%child_nodes_ok Hin (np' & Hp' & <-)%node_type_ok. rewrite Hp in Hp'. injection Hp' as <-.
  destruct (winv_node h (wild_inv h Hr) p np Hp) as (_ & _ & _ & [H4 _] & _).
  destruct (H4 c Hin) as (_ & s & Hs & [Hl _]). apply info_inv in Hs as (nc & Hc & <-).
  exists (n_type nc). split; [apply node_type_ok; eauto|]. by apply permitted_allowed.
Qed.
Print Assumptions C75_child_types.

Theorem C75_one_document_element : forall h d l i j a b, wild h -> node_type_of h d = Ok NDocument -> child_nodes h d = Ok l ->
  l !! i = Some a -> l !! j = Some b -> node_type_of h a = Ok NElement -> node_type_of h b = Ok NElement -> i = j.
Proof.
  intros h d l i j a b Hr (nd & Hd & Ht)%node_type_ok (nd' & Hd' & <-)%child_nodes_ok Ha Hb (na & Hna & Hta)%node_type_ok
    (nb & Hnb & Htb)%node_type_ok. rewrite Hd in Hd'. injection Hd' as <-.
  destruct (winv_node h (wild_inv h Hr) d nd Hd) as (_ & _ & _ & [_ H4] & _).
  by eapply (H4 Ht i j a b (static na) (static nb)); try (by apply info_some).
Qed.
Print Assumptions C75_one_document_element.

(** Type, name and owner never change. *)
Lemma wlater_isteps h h' : wild h -> wlater h h' -> wild h' /\ wisteps (fun _ => True) h h'.
Proof.
  intros Hw H. induction H as [|h1 h2 h3 (o & Hs) _ IH]; [split; [done|apply wisteps_nil]|].
  pose proof (wild_step _ _ _ Hw Hs) as Hw2. destruct (IH Hw2) as [Hw3 Hs3]. split; [done|].
  eapply wisteps_app; [|exact Hs3]. eapply wisteps_weaken; [done|]. eapply wstep_isteps; [by apply wild_inv|exact Hs].
Qed.
Theorem C75_identity : forall h h' i n n', wild h -> wlater h h' -> h_nodes h !! i = Some n -> h_nodes h' !! i = Some n' ->
  n_type n' = n_type n /\ n_name n' = n_name n /\ n_owner n' = n_owner n.
Proof.
  intros h h' i n n' Hr Hl Hn Hn'. destruct (wlater_isteps h h' Hr Hl) as [_ Hs].
  pose proof (wisteps_info_back _ _ _ i _ Hs (info_some _ _ _ Hn') (winv_lt h (wild_inv h Hr) i n Hn)) as Hi.
  rewrite (info_some _ _ _ Hn) in Hi. by injection Hi as -> -> ->.
Qed.
Print Assumptions C75_identity.

Theorem C75_same_owner : forall h p c l tp, wild h -> child_nodes h p = Ok l -> In c l -> node_type_of h p = Ok tp ->
  tp <> NDocument -> owner_link h c = owner_link h p /\ owner_document h c = owner_document h p.
Proof.
  intros h p c l tp Hr (np & Hp & <-)%child_nodes_ok Hin (np' & Hp' & <-)%node_type_ok Ht. rewrite Hp in Hp'. injection Hp' as <-.
  destruct (winv_node h (wild_inv h Hr) p np Hp) as (_ & _ & _ & [H4 _] & _).
  destruct (H4 c Hin) as (_ & s & Hs & [_ Ho]). apply info_inv in Hs as (nc & Hc & <-). cbn in Ho. specialize (Ho Ht).
  unfold owner_link, owner_document. rewrite Hc, Hp, (get_node_some _ _ _ Hc), (get_node_some _ _ _ Hp). cbn [rbind]. by rewrite Ho.
Qed.
Print Assumptions C75_same_owner.

(** A parent, even one that does not list the node, could hold it: it is of a type that may, and of the same document. *)
Theorem C75_parent_kind : forall h c p tc, wild h -> parent_node h c = Ok (Some p) -> node_type_of h c = Ok tc ->
  exists tp, node_type_of h p = Ok tp /\ In tc (permitted_children tp) /\
    (tp = NDocument -> owner_link h c = Some p) /\ (tp <> NDocument -> owner_link h c = owner_link h p).
Proof.
  intros h c p tc Hr Hp (nc & Hc & <-)%node_type_ok. unfold parent_node in Hp. rewrite (get_node_some _ _ _ Hc) in Hp. cbn [rbind] in Hp.
  destruct (is_type NAttribute nc); [done|]. injection Hp as Hp. apply upgrade_some in Hp as [Hp (np & Hnp)].
  destruct (winv_node h (wild_inv h Hr) c nc Hc) as (_ & _ & H3 & _). destruct (H3 p Hp) as (_ & _ & H4).
  destruct (H4 (static np) (info_some _ _ _ Hnp)) as [[H5 H6] H7]. cbn in *. exists (n_type np).
  split; [apply node_type_ok; eauto|]. split; [by apply permitted_allowed|]. unfold owner_link. rewrite Hc, Hnp. split; auto.
Qed.
Print Assumptions C75_parent_kind.

Theorem C75_keyed_by_name : forall h e l, wild h -> attributes h e = Ok l ->
  List.NoDup (map fst l) /\ forall k a, In (k, a) l ->
    node_type_of h a = Ok NAttribute /\ node_name h a = Ok k /\ owner_link h a = owner_link h e.
Proof.
  intros h e l Hr (n & Hn & ->)%attributes_ok. pose proof (wild_inv h Hr) as HI.
  destruct (is_type NElement n); [|split; [constructor|done]]. destruct (winv_node h HI e n Hn) as (Hx & _). unfold wext_ok in Hx.
  destruct (n_ext n) as [| | | |attrs nss| |] eqn:Hext; try (split; [constructor|done]). destruct Hx as (Ht & Hnd & Ha & _). split; [done|].
  intros k a Hin. destruct (Ha k a Hin) as (s & Hs & Hst & Hsn & Hso). apply info_inv in Hs as (na & Hna & <-).
  unfold node_type_of, node_name, owner_link, get_node. rewrite Hna, Hn. cbn in *. split_and!; congruence.
Qed.
Print Assumptions C75_keyed_by_name.

(** Names are the fixed one of the type, or one that was read as a name. *)
Definition fixed_name (t : node_type) : option str :=
  match t with
  | NText => Some (lit "#text") | NCData => Some (lit "#cdata-section") | NComment => Some (lit "#comment")
  | NDocument => Some (lit "#document") | NDocumentFragment => Some (lit "#document-fragment") | _ => None
  end.
Theorem C75_names : forall h i t k, wild h -> node_type_of h i = Ok t -> node_name h i = Ok k ->
  match fixed_name t with
  | Some s => k = mkName None None s
  | None => exists s m, plain_name s m /\ nm_prefix k = nm_prefix m /\ nm_local k = nm_local m
  end.
Proof.
  intros h i t k Hr (n & Hn & <-)%node_type_ok Hk. unfold node_name in Hk. rewrite (get_node_some _ _ _ Hn) in Hk. injection Hk as <-.
  destruct (winv_node h (wild_inv h Hr) i n Hn) as (_ & _ & _ & _ & Hnm). unfold name_ok in Hnm.
  destruct (n_type n); cbn; try exact Hnm; first [destruct Hnm as [(s & Hs) _]|destruct Hnm as (s & Hs)]; apply plain_name_ok in Hs; eauto.
Qed.
Print Assumptions C75_names.
(** No instruction is ever called [xml], in any capitalisation. *)
Theorem C75_targets : forall h i k, wild h -> node_type_of h i = Ok NProcessingInstruction -> node_name h i = Ok k -> ~ xml_target (name_to_string k).
Proof.
  intros h i k Hr (n & Hn & Ht)%node_type_ok Hk. unfold node_name in Hk. rewrite (get_node_some _ _ _ Hn) in Hk. injection Hk as <-.
  destruct (winv_node h (wild_inv h Hr) i n Hn) as (_ & _ & _ & _ & Hnm). unfold name_ok in Hnm. rewrite Ht in Hnm. apply Hnm.
Qed.
Print Assumptions C75_targets.

(** ** What calls on a node of another type do *)
(** A factory makes the same node as on a document, and the node it was called on is reported as the document. *)
Theorem C75_factory_on_any_node : forall h i s nm, wild h -> alive h i = true -> plain_name s nm ->
  exists h' e, create_element i s h = (h', Ok e) /\ alive h e = false /\ only_changed (mkHeap (h_nodes h) (h_next h')) h' (fun j => j = e) /\
    node_type_of h' e = Ok NElement /\ node_name h' e = Ok nm /\ child_nodes h' e = Ok [] /\ owner_document h' e = Ok (Some i).
Proof.
  intros h i s nm Hw [n Hn]%alive_true Hs%plain_name_ok. pose proof (winv_lt h (wild_inv h Hw)) as Hlt.
  assert (Hf : h_nodes h !! h_next h = None). { destruct (h_nodes h !! h_next h) eqn:E; [|done]. apply Hlt in E. lia. }
  exists (allocd (new_element i nm) h), (h_next h). split.
  { unfold create_element, with_handle. unfold bind at 1. rewrite getM_eq, (get_node_some _ _ _ Hn). unfold bind, lift. by rewrite Hs. }
  assert (He : h_nodes (allocd (new_element i nm) h) !! h_next h = Some (new_element i nm)) by (cbn; by rewrite lookup_insert).
  split; [unfold alive; by rewrite Hf|]. split.
  { split; [done|]. intros j Hj. cbn. by rewrite lookup_insert_ne. }
  unfold node_type_of, node_name, child_nodes, owner_document. rewrite (get_node_some _ _ _ He). cbn [rbind]. split_and!; try done.
  cbn. unfold alive, allocd. cbn. rewrite lookup_insert_ne by (intros <-; congruence). by rewrite Hn.
Qed.
Print Assumptions C75_factory_on_any_node.
Example C75_factory_example : node_type_of ex_wild 4 = Ok NText /\ alive ex_wild 4 = true /\
  owner_document (create_element 4 (lit "z") ex_wild).1 (h_next ex_wild) = Ok (Some 4).
Proof. by vm_compute. Qed.

(** The attribute calls of an element are refused on other nodes; [set_attribute] has made the attribute by then. *)
Theorem C75_not_an_element : forall E h e a t, wild h -> node_type_of h e = Ok t -> t <> NElement -> alive h a = true ->
  set_attribute_node E e a h = (h, Err InvalidState) /\ remove_attribute_node e a h = (h, Err InvalidState).
Proof.
  intros E h e a t Hw (n & Hn & <-)%node_type_ok Ht [na Ha]%alive_true. apply is_type_false in Ht.
  unfold set_attribute_node, remove_attribute_node. unfold bind at 1. rewrite getM_eq, (get_node_some _ _ _ Hn). unfold bind at 1.
  rewrite getM_eq, (get_node_some _ _ _ Ha), Ht. split; [done|]. unfold bind. rewrite getM_eq, (get_node_some _ _ _ Hn). by rewrite Ht.
Qed.
Print Assumptions C75_not_an_element.
Theorem C75_set_attribute : forall E h e t s nm v, wild h -> node_type_of h e = Ok t -> t <> NElement -> plain_name s nm ->
  exists h', (forall i, alive h i = true -> h_nodes h' !! i = h_nodes h !! i) /\
    (t = NDocument \/ t = NDocumentType -> set_attribute E e s v h = (h', Panic PUnwrap)) /\
    (t <> NDocument -> t <> NDocumentType -> set_attribute E e s v h = (h', Err InvalidState)).
Proof.
  intros E h e t s nm v Hw (n & Hn & <-)%node_type_ok Ht Hs%plain_name_ok. pose proof (wild_inv h Hw) as HI. apply is_type_false in Ht.
  pose proof (winv_lt h HI) as Hlt.
  destruct (n_owner n) as [d|] eqn:Ho.
  - set (h1 := allocd (new_text d v) h). set (h2 := allocd (attr_node d nm [h_next h]) h1).
    assert (Hdn : n_type n <> NDocument /\ n_type n <> NDocumentType).
    { destruct (winv_node h HI e n Hn) as (_ & H & _). unfold wowner_ok in H. rewrite Ho in H. by destruct (n_type n). }
    assert (Hold : forall i, alive h i = true -> h_nodes h2 !! i = h_nodes h !! i).
    { intros i [m Hm]%alive_true. apply Hlt in Hm. unfold h2, h1, allocd. cbn. by rewrite !lookup_insert_ne by lia. }
    exists h2. split; [done|]. split; [intros [?|?]; naive_solver|]. intros _ _.
    assert (He2 : h_nodes h2 !! e = Some n) by (rewrite Hold by (apply alive_true; eauto); done).
    assert (Ha2 : h_nodes h2 !! S (h_next h) = Some (attr_node d nm [h_next h])) by (unfold h2; cbn; by rewrite lookup_insert).
    unfold set_attribute. unfold bind at 1. unfold lift at 1. rewrite Hs. unfold set_new_attribute. unfold bind at 1. rewrite getM_eq, (get_node_some _ _ _ Hn).
    unfold bind at 1. unfold lift at 1. rewrite Ho. cbn [unwrap_opt].
    change (bind (set_attribute_node E e (S (h_next h))) (fun _ => ret tt) h2 = (h2, Err InvalidState)).
    unfold set_attribute_node. unfold bind at 1. unfold bind at 1. rewrite getM_eq, (get_node_some _ _ _ He2). unfold bind at 1.
    rewrite getM_eq, (get_node_some _ _ _ Ha2), Ht. done.
  - exists h. split; [done|].
    assert (Hp : set_attribute E e s v h = (h, Panic PUnwrap)).
    { unfold set_attribute. unfold bind at 1. unfold lift at 1. rewrite Hs. unfold set_new_attribute. unfold bind at 1. rewrite getM_eq, (get_node_some _ _ _ Hn).
      unfold bind at 1. unfold lift at 1. by rewrite Ho. }
    split; [done|]. intros H1 H2. destruct (winv_node h HI e n Hn) as (_ & H & _). unfold wowner_ok in H. rewrite Ho in H.
    destruct (n_type n); try done; by destruct H as (? & ? & _).
Qed.
Print Assumptions C75_set_attribute.
Example C75_not_an_element_example : node_type_of ex_wild 4 = Ok NText /\ (set_attribute env0 4 (lit "k") (lit "v") ex_wild).2 = Err InvalidState /\
  (set_attribute env0 0 (lit "k") (lit "v") ex_wild).2 = Panic PUnwrap /\ set_attribute_node env0 3 6 ex_wild = (ex_wild, Err InvalidState).
Proof. by vm_compute. Qed.

(** [Attribute::unset_value] takes the children off any node and tells none of them. *)
Theorem C75_unset_value : forall h i, alive h i = true ->
  exists h', attr_unset_value i h = (h', Ok tt) /\ child_nodes h' i = Ok [] /\ only_changed h h' (fun j => j = i) /\
    forall c, parent_node h' c = parent_node h c.
Proof.
  intros h i [n Hn]%alive_true. exists (upd i (set_children [] n) h). split; [unfold attr_unset_value; by apply modifyM_eq|].
  split; [unfold child_nodes; by rewrite (get_node_some _ _ _ (lookup_upd i _ h))|]. split.
  { split; [done|]. intros j Hj. by rewrite lookup_upd_ne by congruence. }
  intros c. assert (Hal : forall w, upgrade (upd i (set_children [] n) h) w = upgrade h w).
  { intros [p|]; [|done]. unfold upgrade, alive. destruct (decide (p = i)) as [->|Hp]; [by rewrite lookup_upd, Hn|]. by rewrite lookup_upd_ne by congruence. }
  unfold parent_node, get_node. destruct (decide (c = i)) as [->|Hc].
  - rewrite lookup_upd, Hn. cbn [rbind]. rewrite Hal. done.
  - rewrite lookup_upd_ne by congruence. destruct (h_nodes h !! c) as [nc|]; [|done]. cbn [rbind]. by rewrite Hal.
Qed.
Print Assumptions C75_unset_value.

(** ** What does not hold *)
Theorem C75_owner_is_document_refuted : exists h i d, wild h /\ owner_document h i = Ok (Some d) /\ node_type_of h d = Ok NElement.
Proof. exists ex_wild, 2, 1. split; [exact ex_wild_wild|]. by vm_compute. Qed.
Print Assumptions C75_owner_is_document_refuted.
Theorem C75_doc_type_refuted : exists h d t, wild h /\ doc_type h d = Ok (Some t) /\ node_type_of h t = Ok NElement.
Proof. exists ex_wild, 8, 2. split; [exact ex_wild_wild|]. by vm_compute. Qed.
Print Assumptions C75_doc_type_refuted.
(** An element loses its children to [unset_value]; they still name it as parent and can be put nowhere else, not even back. *)
Definition ex_stale_ops : list op :=
  [OCreateDocument None (Some (lit "r")) None options_new; OCreateElement 0 (lit "e"); OAppendChild 1 2; OAttrUnsetValue 1; OCreateFragment 0].
Definition ex_stale : heap := default empty_heap (wrun env0 ex_stale_ops empty_heap).
Theorem C75_parent_lists_child_refuted : exists h p c, wild h /\ node_type_of h p = Ok NElement /\ parent_node h c = Ok (Some p) /\
  child_nodes h p = Ok [] /\ append_child p c h = (h, Err NotFound) /\ next_sibling h c = Ok None.
Proof. exists ex_stale, 1, 2. split; [apply (wrun0_wild ex_stale_ops); by vm_compute|]. by vm_compute. Qed.
Print Assumptions C75_parent_lists_child_refuted.
