(** * C70: node values, removal by expanded name, own namespace mappings, name prefixes, default declaration *)
From Coq Require Import Lia.
From Verif Require Import NsModel SpecNs SpecWalk ProofText ProofName PropName ProofInv ProofSteps ProofOps ProofTree ProofElem ProofWalk PropTree PropElem PropFactory PropNs.
From Verif Require Import SpecGetters.

(** The two nodes differ at most in their value. *)
Definition same_but_value (n n' : node) : Prop :=
  n_type n' = n_type n /\ n_name n' = n_name n /\ n_parent n' = n_parent n /\ n_owner n' = n_owner n /\ n_children n' = n_children n /\ n_ext n' = n_ext n.
(** ... at most in attributes and mappings. *)
Definition same_but_ext (n n' : node) : Prop :=
  n_type n' = n_type n /\ n_name n' = n_name n /\ n_value n' = n_value n /\ n_parent n' = n_parent n /\ n_owner n' = n_owner n /\ n_children n' = n_children n.

Theorem C70_set_node_value : forall h i v, alive h i = true -> exists h', set_node_value i v h = (h', Ok tt) /\
  node_value h' i = Ok (Some v) /\ only_changed h h' (eq i) /\
  forall n n', h_nodes h !! i = Some n -> h_nodes h' !! i = Some n' -> same_but_value n n'.
Proof.
  intros h i v (n & Hn)%alive_true. exists (upd i (set_value (Some v) n) h). unfold set_node_value. rewrite (modifyM_eq _ _ n) by done. split; [done|].
  unfold node_value, get_node. rewrite lookup_upd. split; [done|]. split; [split; [done|]; intros j Hj; by rewrite lookup_upd_ne by congruence|].
  intros n1 n2 H1 [= <-]. rewrite Hn in H1. injection H1 as <-. by split_and!.
Qed.
Print Assumptions C70_set_node_value.
Theorem C70_unset_node_value : forall h i, alive h i = true -> exists h', unset_node_value i h = (h', Ok tt) /\
  node_value h' i = Ok None /\ only_changed h h' (eq i) /\
  forall n n', h_nodes h !! i = Some n -> h_nodes h' !! i = Some n' -> same_but_value n n'.
Proof.
  intros h i (n & Hn)%alive_true. exists (upd i (set_value None n) h). unfold unset_node_value. rewrite (modifyM_eq _ _ n) by done. split; [done|].
  unfold node_value, get_node. rewrite lookup_upd. split; [done|]. split; [split; [done|]; intros j Hj; by rewrite lookup_upd_ne by congruence|].
  intros n1 n2 H1 [= <-]. rewrite Hn in H1. injection H1 as <-. by split_and!.
Qed.
Print Assumptions C70_unset_node_value.

(** ** Attribute::unset_value *)
(** The attribute loses its text, and with it its value; nothing else changes.  In particular text nodes that name the attribute as their
    parent keep doing so. *)
Theorem C70_unset_value : forall E h a, node_type_of h a = Ok NAttribute -> exists h', attr_unset_value a h = (h', Ok tt) /\
  child_nodes h' a = Ok [] /\ attr_value E h' a = Ok None /\ only_changed h h' (eq a) /\
  (forall n n', h_nodes h !! a = Some n -> h_nodes h' !! a = Some n' ->
    n_type n' = n_type n /\ n_name n' = n_name n /\ n_value n' = n_value n /\ n_parent n' = n_parent n /\ n_owner n' = n_owner n /\ n_ext n' = n_ext n) /\
  (forall c, c <> a -> parent_node h' c = parent_node h c).
Proof.
  intros E h a (n & Hn & Ht)%node_type_ok. exists (upd a (set_children [] n) h). unfold attr_unset_value. rewrite (modifyM_eq _ _ n) by done. split; [done|].
  unfold child_nodes, attr_value, get_node. rewrite lookup_upd. split; [done|]. split; [done|]. split; [split; [done|]; intros j Hj; by rewrite lookup_upd_ne by congruence|].
  split.
  - intros n1 n2 H1 [= <-]. rewrite Hn in H1. injection H1 as <-. by split_and!.
  - intros c Hc. unfold parent_node, get_node. rewrite lookup_upd_ne by congruence. destruct (h_nodes h !! c) as [nc|]; [|done]. cbn [rbind].
    destruct (n_parent nc) as [q|]; [|done]. cbn. unfold alive. destruct (decide (q = a)) as [->|Hq]; [by rewrite lookup_upd, Hn|by rewrite lookup_upd_ne].
Qed.
Print Assumptions C70_unset_value.

(** ** remove_attribute_ns *)
Definition has_expanded (u l : str) (k : Name) : Prop := nm_ns k = Some u /\ nm_local k = l.
Theorem C70_remove_ns : forall E h h' e u s r l, wf_env E -> reachable h -> node_type_of h e = Ok NElement -> attributes h e = Ok l ->
  expanded_apart h e -> remove_attribute_ns E e u s h = (h', r) -> returned r -> r = Ok tt /\
  ((exists nm, qualified_name u s nm) -> forall k a l', attributes h' e = Ok l' -> In (k, a) l' <-> In (k, a) l /\ ~ has_expanded u s k) /\
  (~ (exists nm, qualified_name u s nm) -> h' = h) /\
  ((forall k a, In (k, a) l -> ~ has_expanded u s k) -> h' = h) /\
  get_attribute_ns E h' e u s = Ok None /\
  only_changed h h' (eq e) /\
  (forall n n', h_nodes h !! e = Some n -> h_nodes h' !! e = Some n' -> same_but_ext n n').
Proof.
  intros E h h' e u s r l HE Hr (ne & He & Hte)%node_type_ok Hl Hap H Hret. pose proof (reachable_inv h Hr) as HI.
  destruct (el_ext h e ne HI He Hte) as (attrs & nss & Hx). pose proof (attributes_el h e ne _ _ He Hte Hx) as Hat.
  rewrite Hat in Hl. injection Hl as <-. pose proof (C39_keyed_by_name h e attrs Hr Hat) as [Hnd Hkey]. apply is_type_true in Hte as Ht.
  assert (Hau : forall u s, at_most_one (by_ns u s) attrs).
  { intros u1 s1 k1 a1 k2 a2 H1 H2 [Hp1 Hp2]%by_ns_true [Hp3 Hp4]%by_ns_true. eapply Hap; try done; congruence. }
  unfold remove_attribute_ns in H.
  assert (Hsame : forall n n', h_nodes h !! e = Some n -> h_nodes h !! e = Some n' -> same_but_ext n n').
  { intros n1 n2 H1 H2. rewrite H1 in H2. injection H2 as ->. by split_and!. }
  destruct (name_new_ns u s) as [nm|x|x|] eqn:Hn.
  2:{ assert (Hg : get_attribute_node_ns E h e u s = Ok None) by (unfold get_attribute_node_ns; rewrite (get_node_some _ _ _ He); cbn [rbind]; by rewrite Ht, Hn).
      rewrite (bind_read _ _ _ _ Hg) in H. injection H as <- <-. split; [done|]. split.
      { intros (nm & Hnm%qualified_name_ok). congruence. }
      split_and!; try done. unfold get_attribute_ns. by rewrite Hg. }
  2,3: assert (Hg : returned (get_attribute_node_ns E h e u s) -> False) by (unfold get_attribute_node_ns; rewrite (get_node_some _ _ _ He); cbn [rbind]; by rewrite Ht, Hn);
      unfold bind, lift in H; destruct (get_attribute_node_ns E h e u s) as [o|y|y|]; [destruct (Hg Logic.I)|destruct (Hg Logic.I)|..]; injection H as <- <-; done.
  assert (Hq : exists nm, qualified_name u s nm) by (exists nm; by apply qualified_name_ok).
  pose proof (get_attribute_node_ns_eq E h e ne attrs nss u s nm He Hte Hx Hn) as Hg. rewrite (bind_read _ _ _ _ Hg) in H.
  destruct (exists_or_none (by_ns u s) attrs) as [(k & a & Hin & Hp)|Hno].
  2:{ rewrite (lookup_attr_none E _ _ HE Hno) in H. injection H as <- <-. split; [done|]. split.
      { intros _ k a l' Hl'. rewrite Hat in Hl'. injection Hl' as <-. split; [|tauto]. intros Hin. split; [done|]. intros Hk%by_ns_true. by rewrite (Hno k a Hin) in Hk. }
      split_and!; try done. unfold get_attribute_ns. rewrite Hg. by rewrite (lookup_attr_none E _ _ HE Hno). }
  rewrite (lookup_attr_some E _ _ k a HE Hnd (Hau u s) Hin Hp) in H. apply by_ns_true in Hp.
  destruct (Hkey k a Hin) as (Hta & Hna & _). apply node_type_ok in Hta as (na & Ha & Hta).
  unfold node_name in Hna. rewrite (get_node_some _ _ _ Ha) in Hna. injection Hna as Hna.
  rewrite (bind_ok _ _ _ _ _ (remove_attribute_node_eq h e a ne na attrs nss HI He Hte Hx Ha Hta)) in H. injection H as <- <-. rewrite Hna.
  set (ne' := set_ext _ ne). assert (He' : h_nodes (upd e ne' h) !! e = Some ne') by apply lookup_upd.
  assert (Hat' : attributes (upd e ne' h) e = Ok (hm_remove k attrs)) by (by eapply attributes_el).
  assert (Hmem : forall k1 a1, In (k1, a1) (hm_remove k attrs) <-> In (k1, a1) attrs /\ ~ has_expanded u s k1).
  { intros k1 a1. rewrite (hm_remove_iff _ _ _ _ Hnd). destruct Hp as [P1 P2]. split; intros [H1 H2]; (split; [try done|try done]).
    - intros [K1 K2]. apply H1. eapply (Hap attrs); try done; congruence.
    - intros ->. by apply H2. }
  split; [done|]. split.
  { intros _ k1 a1 l' Hl'. rewrite Hat' in Hl'. injection Hl' as <-. apply Hmem. }
  split; [done|]. split; [intros Hno; by destruct (Hno k a Hin)|]. split; [|split].
  - unfold get_attribute_ns. erewrite (get_attribute_node_ns_eq E (upd e ne' h)) by done. rewrite lookup_attr_none; [done|done|].
    intros k1 a1 [_ Hin1]%Hmem. destruct (by_ns u s k1) eqn:Hb; [|done]. by apply by_ns_true in Hb.
  - split; [done|]. intros i Hi. apply lookup_upd_ne. congruence.
  - intros n1 n2 H1 H2. rewrite He' in H2. injection H2 as <-. rewrite He in H1. injection H1 as <-. by split_and!.
Qed.
Print Assumptions C70_remove_ns.
(** [has_attribute_ns] may still say yes afterwards: it takes the local part of its argument, the removal does not. *)
Theorem C70_remove_ns_has_refuted : exists h h' e u s, reachable h /\ expanded_apart h e /\ remove_attribute_ns env0 e u s h = (h', Ok tt) /\ has_attribute_ns h' e u s = Ok true.
Proof.
  pose (ops := [OCreateDocument None (Some (lit "r")) None options_new; OSetAttributeNs 1 (lit "urn:u") (lit "p:b") (lit "v")]).
  exists (default empty_heap (run env0 ops empty_heap)), (default empty_heap (run env0 ops empty_heap)), 1, (lit "urn:u"), (lit "p:b").
  split; [apply (run0_reachable ops); by vm_compute|]. split; [|by vm_compute].
  intros l k1 a1 k2 a2 Hl. vm_compute in Hl. injection Hl as <-. intros [[= <- <-]|[]] [[= <- <-]|[]]. done.
Qed.
Print Assumptions C70_remove_ns_has_refuted.
Definition ex_small_ops : list op :=
  [OCreateDocument None (Some (lit "r")) None options_new; OSetAttributeNs 1 (lit "urn:u") (lit "p:b") (lit "v"); OSetAttribute 1 (lit "b") (lit "w");
   OCreatePI 0 (lit "go") (Some (lit "x"))].
Definition ex_small : heap := default empty_heap (run env0 ex_small_ops empty_heap).
Example C70_example : reachable ex_small /\ expanded_apart ex_small 1 /\ attributes ex_small 1 = Ok [(mkName (Some (lit "urn:u")) (Some (lit "p")) (lit "b"), 3); (mkName None None (lit "b"), 5)] /\
  (exists h', remove_attribute_ns env0 1 (lit "urn:u") (lit "b") ex_small = (h', Ok tt) /\ attributes h' 1 = Ok [(mkName None None (lit "b"), 5)]) /\
  (exists h', remove_attribute_ns env0 1 [] (lit "b") ex_small = (h', Ok tt) /\ attributes h' 1 = attributes ex_small 1) /\
  (exists h', set_node_value 6 (lit "y") ex_small = (h', Ok tt) /\ node_value h' 6 = Ok (Some (lit "y"))) /\
  (exists h', unset_node_value 6 ex_small = (h', Ok tt) /\ node_value h' 6 = Ok None).
Proof.
  split; [apply (run0_reachable ex_small_ops); by vm_compute|]. split.
  { intros l k1 a1 k2 a2 Hl. vm_compute in Hl. injection Hl as <-. intros [[= <- <-]|[[= <- <-]|[]]] [[= <- <-]|[[= <- <-]|[]]]; by intros. }
  split; [by vm_compute|]. split_and!; eexists; (split; [by vm_compute|by vm_compute]).
Qed.
Example C70_unset_value_example : let h0 := (attr_set_value 5 (lit "z") ex_small).1 in let h' := (attr_unset_value 5 h0).1 in node_type_of h0 5 = Ok NAttribute /\
  attr_value env0 h0 5 = Ok (Some (lit "z")) /\ child_nodes h0 5 = Ok [7] /\ attr_value env0 h' 5 = Ok None /\ parent_node h' 7 = Ok (Some 5).
Proof. by vm_compute. Qed.

(** ** The element's own mappings: crate-internal insert (reached through set_attribute_node) and remove (never called) *)
Theorem C70_insert_mapping : forall h i p u, reachable h -> aware h i -> node_type_of h i = Ok NElement -> exists h', insert_mapping i p u h = (h', Ok tt) /\
  (forall q w, maps h' i q w <-> q = p /\ w = u \/ q <> p /\ maps h i q w) /\ attributes h' i = attributes h i /\ only_changed h h' (eq i) /\
  (forall n n', h_nodes h !! i = Some n -> h_nodes h' !! i = Some n' -> same_but_ext n n').
Proof.
  intros h i p u Hr Ha (n & Hn & Ht)%node_type_ok. pose proof (reachable_inv h Hr) as HI. destruct (el_ext h i n HI Hn Ht) as (attrs & nss & Hx).
  destruct (own_maps h i n HI Hn) as [_ Hnd]. apply is_type_true in Ht as Ht'. unfold own_namespaces in Hnd. rewrite Ht', Hx in Hnd.
  exists (upd i (set_ext (XElement attrs (hm_insert p u nss)) n) h). unfold insert_mapping. rewrite (bind_read _ _ _ _ (add_namespaces_true h i Ha)). cbn [negb].
  rewrite (bind_node _ n) by done. rewrite Ht', Hx, (modifyM_eq _ _ n) by done. split; [done|]. split.
  { intros q w. unfold maps. setoid_rewrite lookup_upd. setoid_rewrite Hn. split.
    - intros (n1 & a1 & s1 & [= <-] & [= <- <-] & Hin). apply hm_insert_iff in Hin as [?|[? ?]]; [by left| |done]. right. split; [done|]. by exists n, attrs, nss.
    - intros H. eexists _, attrs, (hm_insert p u nss). split; [done|]. split; [done|]. apply hm_insert_iff; [done|].
      destruct H as [?|(Hq & n1 & a1 & s1 & [= <-] & Hx1 & Hin)]; [by left|right]. split; [done|]. congruence. }
  split.
  { rewrite (attributes_el h i n attrs nss) by done. eapply attributes_el; [apply lookup_upd|done|done]. }
  split; [split; [done|]; intros j Hj; apply lookup_upd_ne; congruence|].
  intros n1 n2 H1 H2. rewrite lookup_upd in H2. injection H2 as <-. rewrite Hn in H1. injection H1 as <-. by split_and!.
Qed.
Print Assumptions C70_insert_mapping.
Theorem C70_remove_mapping : forall h i p, reachable h -> aware h i -> node_type_of h i = Ok NElement -> exists h', remove_mapping i p h = (h', Ok tt) /\
  (forall q w, maps h' i q w <-> q <> p /\ maps h i q w) /\ attributes h' i = attributes h i /\ only_changed h h' (eq i) /\
  (forall n n', h_nodes h !! i = Some n -> h_nodes h' !! i = Some n' -> same_but_ext n n').
Proof.
  intros h i p Hr Ha (n & Hn & Ht)%node_type_ok. pose proof (reachable_inv h Hr) as HI. destruct (el_ext h i n HI Hn Ht) as (attrs & nss & Hx).
  destruct (own_maps h i n HI Hn) as [_ Hnd]. apply is_type_true in Ht as Ht'. unfold own_namespaces in Hnd. rewrite Ht', Hx in Hnd.
  exists (upd i (set_ext (XElement attrs (hm_remove p nss)) n) h). unfold remove_mapping. rewrite (bind_read _ _ _ _ (add_namespaces_true h i Ha)). cbn [negb].
  rewrite (bind_node _ n) by done. rewrite Ht', Hx, (modifyM_eq _ _ n) by done. split; [done|]. split.
  { intros q w. unfold maps. setoid_rewrite lookup_upd. setoid_rewrite Hn. split.
    - intros (n1 & a1 & s1 & [= <-] & [= <- <-] & Hin). apply hm_remove_iff in Hin as [? ?]; [|done]. split; [done|]. by exists n, attrs, nss.
    - intros (Hq & n1 & a1 & s1 & [= <-] & Hx1 & Hin). eexists _, attrs, (hm_remove p nss). split; [done|]. split; [done|]. apply hm_remove_iff; [done|]. split; [done|]. congruence. }
  split.
  { rewrite (attributes_el h i n attrs nss) by done. eapply attributes_el; [apply lookup_upd|done|done]. }
  split; [split; [done|]; intros j Hj; apply lookup_upd_ne; congruence|].
  intros n1 n2 H1 H2. rewrite lookup_upd in H2. injection H2 as <-. rewrite Hn in H1. injection H1 as <-. by split_and!.
Qed.
Print Assumptions C70_remove_mapping.
(** Without the option neither does anything; on another type of node both refuse. *)
Theorem C70_mapping_refused : forall h i p u, alive h i = true -> 
  (~ aware h i -> insert_mapping i p u h = (h, Ok tt) /\ remove_mapping i p h = (h, Ok tt)) /\
  (aware h i -> node_type_of h i <> Ok NElement -> insert_mapping i p u h = (h, Err InvalidState) /\ remove_mapping i p h = (h, Err InvalidState)).
Proof.
  intros h i p u (n & Hn)%alive_true. split.
  - intros Hf%(add_namespaces_false h i n Hn). unfold insert_mapping, remove_mapping. by rewrite !(bind_read _ _ _ _ Hf).
  - intros Ha Ht. unfold insert_mapping, remove_mapping. rewrite !(bind_read _ _ _ _ (add_namespaces_true h i Ha)). cbn [negb].
    rewrite !(bind_node _ n) by done. assert (is_type NElement n = false) as ->; [|done]. apply is_type_false. intros Hc. apply Ht, node_type_ok. eauto.
Qed.
Print Assumptions C70_mapping_refused.
Definition ex_map_ops : list op := [OCreateDocument None (Some (lit "r")) None (set_add_namespaces options_new)].
Definition ex_map : heap := default empty_heap (run env0 ex_map_ops empty_heap).
Definition ex_map1 : heap := (insert_mapping 1 (Some (lit "p")) (lit "urn:u") ex_map).1.
Definition ex_map2 : heap := (remove_mapping 1 (Some (lit "p")) ex_map1).1.
Example ex_map_reachable : reachable ex_map.
Proof. apply (run0_reachable ex_map_ops). by vm_compute. Qed.
Example C70_mapping_example : (insert_mapping 1 (Some (lit "p")) (lit "urn:u") ex_map).2 = Ok tt /\ get_namespace ex_map1 1 (Some (lit "p")) = Ok (Some (lit "urn:u")) /\
  (remove_mapping 1 (Some (lit "p")) ex_map1).2 = Ok tt /\ get_namespace ex_map2 1 (Some (lit "p")) = Ok None /\ (insert_mapping 0 None (lit "u") ex_map).2 = Ok tt.
Proof. by vm_compute. Qed.

(** ** Names and declarations *)
Theorem C70_set_prefix : forall n p, nm_ns (name_set_prefix n p) = nm_ns n /\ nm_local (name_set_prefix n p) = nm_local n /\ nm_prefix (name_set_prefix n p) = p /\
  name_to_string (name_set_prefix n p) = match p with Some x => x ++ lit ":" ++ nm_local n | None => nm_local n end.
Proof. intros [u q l] p. by destruct p. Qed.
Print Assumptions C70_set_prefix.
(** The new prefix is not checked: the changed name need not be one the constructors accept. *)
Theorem C70_set_prefix_valid_refuted : exists u s n p, name_new_ns u s = Ok n /\
  name_from_str (name_to_string (name_set_prefix n (Some p))) = Err Syntax /\ name_new_ns u (name_to_string (name_set_prefix n (Some (lit "xml")))) = Err Namespace.
Proof. exists (lit "urn:u"), (lit "a:b"), (mkName (Some (lit "urn:u")) (Some (lit "a")) (lit "b")), (lit "c:d"). by vm_compute. Qed.
Print Assumptions C70_set_prefix_valid_refuted.
(** ** set_xml_declaration *)
(** Only the declaration of the document changes: not its document type, not what it registered, not its options, not its nodes. *)
Theorem C70_set_declaration : forall h d x, reachable h -> node_type_of h d = Ok NDocument -> exists h', set_xml_declaration d x h = (h', Ok tt) /\
  xml_declaration h' d = Ok (Some x) /\ doc_type h' d = doc_type h d /\ (forall k, get_element_by_id h' d k = get_element_by_id h d k) /\ only_changed h h' (eq d) /\
  forall n n', h_nodes h !! d = Some n -> h_nodes h' !! d = Some n' -> same_but_ext n n' /\
    forall D t m o, n_ext n = XDocument D t m o -> n_ext n' = XDocument (Some x) t m o.
Proof.
  intros h d x HR (n & Hn & Ht)%node_type_ok. pose proof (reachable_inv h HR) as HI. destruct (inv_node _ HI _ _ Hn) as (Hx & _). unfold ext_ok in Hx. rewrite Ht in Hx.
  destruct (n_ext n) as [|o|D t m o|p1 p2 p3 p4 p5|al nss|p1 p2 p3|p1 p2] eqn:He; try (by destruct Hx); try done.
  exists (upd d (set_ext (XDocument (Some x) t m o) n) h). unfold set_xml_declaration. rewrite (bind_node _ _ _ _ Hn), He, (modifyM_eq _ _ n) by done. split; [done|].
  unfold xml_declaration, doc_type, get_element_by_id, get_node. rewrite lookup_upd, Hn. cbn [rbind n_ext set_ext]. rewrite He. split; [done|]. split; [done|]. split.
  { intros k. f_equal. unfold upgrade. destruct (hm_get k m) as [e|]; [|done]. unfold alive. destruct (decide (e = d)) as [->|Hed]; [by rewrite lookup_upd, Hn|by rewrite lookup_upd_ne]. }
  split; [split; [done|]; intros j Hj; by rewrite lookup_upd_ne by congruence|].
  intros n1 n2 [= <-] [= <-]. split; [by split_and!|]. intros D' t' m' o' H. rewrite He in H. by injection H as -> -> -> ->.
Qed.
Print Assumptions C70_set_declaration.
(** On nodes of other types it is refused. *)
Theorem C70_set_declaration_refused : forall h i t x, reachable h -> node_type_of h i = Ok t -> t <> NDocument -> set_xml_declaration i x h = (h, Err InvalidState).
Proof.
  intros h i t x HR (n & Hn & Ht)%node_type_ok Hnt. pose proof (reachable_inv h HR) as HI. destruct (inv_node _ HI _ _ Hn) as (Hx & _). unfold ext_ok in Hx. rewrite Ht in Hx.
  unfold set_xml_declaration. rewrite (bind_node _ _ _ _ Hn). destruct (n_ext n); try done. by destruct Hx.
Qed.
Print Assumptions C70_set_declaration_refused.
Definition ex_decl_ops : list op := [OCreateDocument None (Some (lit "a")) None options_new; OSetXmlDecl 0 (mkDecl V11 (Some (lit "UTF-8")) None)].
Definition ex_declared : heap := default empty_heap (run env0 ex_decl_ops empty_heap).
Example C70_declaration_example : reachable ex_declared /\ node_type_of ex_declared 0 = Ok NDocument /\ node_type_of ex_declared 1 = Ok NElement /\
  xml_declaration ex_declared 0 = Ok (Some (mkDecl V11 (Some (lit "UTF-8")) None)) /\
  to_string env0 (set_xml_declaration 0 xml_decl_default ex_declared).1 0 = Ok (lit "<?xml version=""1.0""?><a></a>").
Proof. split; [apply (run0_reachable ex_decl_ops); by vm_compute|by vm_compute]. Qed.
Theorem C70_default_decl : xml_decl_to_string xml_decl_default = lit "<?xml version=""1.0""?>" /\
  forall d, valid_decl d -> xml_decl_to_string d = lit "<?xml version=""1.0""?>" -> xd_version d = V10 /\ xd_encoding d = None /\ xd_standalone d = None.
Proof.
  assert (G : xml_decl_to_string xml_decl_default = lit "<?xml version=""1.0""?>") by (by vm_compute). split; [done|].
  intros d Hd H. rewrite <- G in H. rewrite (C14_print_injective d xml_decl_default Hd Logic.I H). done.
Qed.
Print Assumptions C70_default_decl.
