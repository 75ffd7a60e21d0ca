(** * C71 and C72: what the iteration order of hash maps and the build profile can and cannot change *)
From Coq Require Import Lia.
From Verif Require Import NsModel Display Access SpecNs SpecWalk SpecShow ProofText ProofName PropName ProofInv ProofSteps ProofOps ProofTree ProofElem ProofWalk PropTree PropElem PropFactory PropNs SpecData ProofData.

(** Two environments with the same letters and digits (the regular expression engine's classes). *)
Definition same_classes (E1 E2 : env) : Prop := e_letter E1 = e_letter E2 /\ e_digit E1 = e_digit E2.
(** ... that differ at most in the order in which hash maps are walked. *)
Definition same_but_order (E1 E2 : env) : Prop := same_classes E1 E2 /\ e_checked E1 = e_checked E2.
(** A build with overflow checks and one without, nothing else different. *)
Definition debug_and_release (E1 E2 : env) : Prop := e_checked E1 = true /\ e_checked E2 = false /\
  same_classes E1 E2 /\ e_ord_attr E1 = e_ord_attr E2 /\ e_ord_ns E1 = e_ord_ns E2.

(** ** Computations that use only the classes *)
Lemma bind_cong {A B} (m1 m2 : M A) (k1 k2 : A -> M B) h : m1 h = m2 h -> (forall a h', k1 a h' = k2 a h') -> bind m1 k1 h = bind m2 k2 h.
Proof. intros Hm Hk. unfold bind. rewrite Hm. destruct (m2 h) as [h' [a| | |]]; [apply Hk|done..]. Qed.
Lemma pbind_cong {A B} (m1 m2 : PM A) (k1 k2 : A -> PM B) h : m1 h = m2 h -> (forall a h', k1 a h' = k2 a h') -> pbind m1 k1 h = pbind m2 k2 h.
Proof. intros Hm Hk. unfold pbind. rewrite Hm. destruct (m2 h) as [h' [a| | |]]; [apply Hk|done..]. Qed.
Lemma pdom_cong {A} (m1 m2 : M A) h : m1 h = m2 h -> pdom m1 h = pdom m2 h.
Proof. intros H. unfold pdom. by rewrite H. Qed.
Lemma rbind_cong {A B} (r : res A) (k1 k2 : A -> res B) : (forall a, k1 a = k2 a) -> rbind r k1 = rbind r k2.
Proof. intros H. destruct r; [apply H|done..]. Qed.
Section classes.
  Context (E1 E2 : env) (HC : same_classes E1 E2).
  Lemma find_token_cong s : find_token E1 s = find_token E2 s.
  Proof. destruct E1, E2, HC as [H1 H2]. cbn in H1, H2. subst. reflexivity. Qed.
  Lemma scan_cong r1 r2 : (forall t, r1 t = r2 t) -> forall s k, scan E1 r1 s k = scan E2 r2 s k.
  Proof.
    intros Hr. induction s as [|c s IH]; intros k; [done|]. cbn [scan]. destruct k as [|k]; [|apply IH]. rewrite find_token_cong.
    destruct (find_token E2 (c :: s)) as [[t n]|]; [|by rewrite IH]. rewrite Hr. destruct (r2 t); try done. cbn [rbind]. by rewrite IH.
  Qed.
  Lemma normalize_cong fuel R c : forall v, normalize_attribute_value fuel E1 R c v = normalize_attribute_value fuel E2 R c v.
  Proof.
    induction fuel as [|k IH]; intros v; [done|]. cbn [normalize_attribute_value].
    erewrite scan_cong; [reflexivity|]. intros [m|m|m|]; try done. destruct (R m) as [[r|]| | |]; try done. cbn [rbind]. apply IH.
  Qed.
  #[local] Opaque normalize_attribute_value.
  Lemma attr_value_cong h i : attr_value E1 h i = attr_value E2 h i.
  Proof.
    unfold attr_value. apply rbind_cong. intros n. destruct (is_nil (n_children n)); [exact eq_refl|].
    apply rbind_cong. intros s. rewrite normalize_cong. exact eq_refl.
  Qed.
  Lemma lift_value_cong new h : lift (fun h => let? v := attr_value E1 h new in unwrap_opt v) h = lift (fun h => let? v := attr_value E2 h new in unwrap_opt v) h.
  Proof. unfold lift. by rewrite attr_value_cong. Qed.
  Ltac plain := intros; lazymatch goal with |- context [E1] => fail | _ => reflexivity end.
  Lemma set_attribute_node_cong e a h : set_attribute_node E1 e a h = set_attribute_node E2 e a h.
  Proof.
    unfold set_attribute_node. apply bind_cong; [plain|]. intros ns h1. apply bind_cong; [plain|]. intros na h2. destruct (negb _); [plain|].
    apply bind_cong; [plain|]. intros _ h3. apply bind_cong; [plain|]. intros _ h4. apply bind_cong.
    { destruct (is_namespace_attribute _); [|plain]. apply bind_cong; [apply lift_value_cong|plain]. }
    intros _ h5. apply bind_cong; [plain|]. intros ns' h6. destruct (n_ext ns'); try plain. apply bind_cong; [plain|]. intros _ h7. apply bind_cong; [plain|]. intros d h8.
    destruct (bool_decide (d = _)); [plain|]. apply bind_cong; [plain|]. intros nd h9. destruct (is_id_attribute _ _); [|plain]. destruct (n_ext nd); try plain.
    apply bind_cong; [apply lift_value_cong|plain].
  Qed.
  Lemma set_new_attribute_cong e n v h : set_new_attribute E1 e n v h = set_new_attribute E2 e n v h.
  Proof. unfold set_new_attribute. do 4 (apply bind_cong; [plain|]; intros). apply bind_cong; [apply set_attribute_node_cong|plain]. Qed.
  Lemma handle_attributes_cong doc el : forall l h, handle_attributes E1 doc el l h = handle_attributes E2 doc el l h.
  Proof.
    induction l as [|[name v| |] l IH]; intros h; [reflexivity| |reflexivity|reflexivity]. cbn [handle_attributes]. apply pbind_cong; [plain|]. intros a h1.
    apply pbind_cong; [apply pdom_cong, set_attribute_node_cong|]. intros _ h2. apply IH.
  Qed.
  Lemma handle_start_cong doc p name l h : handle_start E1 doc p name l h = handle_start E2 doc p name l h.
  Proof. unfold handle_start. do 3 (apply pbind_cong; [plain|]; intros). apply pbind_cong; [apply handle_attributes_cong|plain]. Qed.
  Lemma element_cong fuel doc : forall p evs h, element fuel E1 doc p evs h = element fuel E2 doc p evs h.
  Proof.
    induction fuel as [|k IH]; intros p evs h; [reflexivity|]. cbn [element]. destruct evs as [|ev evs]; [reflexivity|].
    destruct ev; rewrite ?handle_start_cong; try plain; try apply IH.
    - destruct (handle_start E2 doc p name attrs h) as [h1 [el| | |]]; try plain. rewrite IH. destruct (element k E2 doc el evs h1) as [[h2 r] [x| | |]]; try plain; try apply IH.
    - destruct (handle_start E2 doc p name attrs h) as [h1 [el| | |]]; try plain; try apply IH.
    - destruct (handle_comment doc p text h) as [h1 [el| | |]]; try plain; try apply IH.
    - destruct (handle_pi doc p text h) as [h1 [el| | |]]; try plain; try apply IH.
    - destruct (handle_text doc p text h) as [h1 [el| | |]]; try plain; try apply IH.
    - destruct (handle_cdata doc p text h) as [h1 [el| | |]]; try plain; try apply IH.
  Qed.
  Lemma document_loop_cong fuel doc : forall evs h, document_loop fuel E1 doc evs h = document_loop fuel E2 doc evs h.
  Proof.
    induction fuel as [|k IH]; intros evs h; [reflexivity|]. cbn [document_loop]. destruct evs as [|ev evs]; [reflexivity|].
    destruct ev; rewrite ?handle_start_cong; try plain; try apply IH.
    - destruct (handle_decl doc version encoding standalone h) as [h1 [el| | |]]; try plain; try apply IH.
    - destruct (handle_start E2 doc doc name attrs h) as [h1 [el| | |]]; try plain. rewrite element_cong.
      destruct (element _ E2 doc el evs h1) as [[h2 r] [x| | |]]; try plain; try apply IH.
    - destruct (handle_start E2 doc doc name attrs h) as [h1 [el| | |]]; try plain; try apply IH.
    - destruct (handle_comment doc doc text h) as [h1 [el| | |]]; try plain; try apply IH.
    - destruct (handle_pi doc doc text h) as [h1 [el| | |]]; try plain; try apply IH.
  Qed.
  Lemma read_cong evs h : read_events E1 evs h = read_events E2 evs h.
  Proof. unfold read_events. destruct (pdom_unwrap _ h) as [h1 [d| | |]]; try plain. apply document_loop_cong. Qed.
End classes.
#[local] Opaque normalize_attribute_value attr_value.

(** The calls that compute an end position. *)
Definition adds_lengths (o : op) : bool :=
  match o with OInsertData _ _ _ | ODeleteData _ _ _ | OReplaceData _ _ _ _ | OSplit _ _ => true | _ => false end.
(** The calls that look an attribute up by name. *)
Definition removes_by_name (o : op) : bool := match o with ORemoveAttribute _ _ | ORemoveAttributeNs _ _ _ => true | _ => false end.

Lemma exec_cong E1 E2 o h : same_classes E1 E2 -> (adds_lengths o = true -> e_checked E1 = e_checked E2) -> (removes_by_name o = true -> e_ord_attr E1 = e_ord_attr E2) ->
  exec E1 o h = exec E2 o h.
Proof.
  intros HC H1 H2. destruct o; cbn [exec]; lazymatch goal with |- context [E1] => idtac | _ => reflexivity end.
  - unfold read_xml_op. by rewrite (read_cong E1 E2).
  - destruct E1, E2. cbn in H1. by rewrite H1.
  - destruct E1, E2. cbn in H1. by rewrite H1.
  - destruct E1, E2. cbn in H1. by rewrite H1.
  - destruct E1, E2. cbn in H1. by rewrite H1.
  - unfold out. apply bind_cong; [|done]. unfold set_attribute. apply bind_cong; [done|]. intros. by apply set_new_attribute_cong.
  - unfold out. apply bind_cong; [|done]. unfold set_attribute_ns. apply bind_cong; [done|]. intros. by apply set_new_attribute_cong.
  - unfold out. apply bind_cong; [|done]. by apply set_attribute_node_cong.
  - destruct E1, E2. cbn in H2. by rewrite H2.
  - destruct E1, E2. cbn in H2. by rewrite H2.
Qed.

(** ** C71: hash order *)
(** No call but the two removals by name depends on it at all. *)
Theorem C71_calls : forall E1 E2 o h, same_but_order E1 E2 -> removes_by_name o = false -> exec E1 o h = exec E2 o h.
Proof. intros E1 E2 o h [HC Hk] Ho. apply exec_cong; [done|done|]. by rewrite Ho. Qed.
Print Assumptions C71_calls.
Theorem C71_histories : forall E1 E2 ops h, same_but_order E1 E2 -> Forall (fun o => removes_by_name o = false) ops -> run E1 ops h = run E2 ops h.
Proof.
  intros E1 E2 ops h HC Ho. revert h. induction Ho as [|o ops Ho _ IH]; intros h; [done|]. cbn [run]. destruct (typed_op h o); [|done].
  rewrite (C71_calls E1 E2) by done. destruct (exec E2 o h) as [h1 [| | |]]; try done; apply IH.
Qed.
Print Assumptions C71_histories.
Lemma lookup_attr_order E1 E2 p attrs : wf_env E1 -> wf_env E2 -> List.NoDup (map fst attrs) -> at_most_one p attrs -> lookup_attr E1 p attrs = lookup_attr E2 p attrs.
Proof.
  intros H1 H2 Hnd Hu. destruct (exists_or_none p attrs) as [(k & a & Hin & Hp)|Hno].
  - by rewrite !(lookup_attr_some _ p attrs k a).
  - by rewrite !lookup_attr_none.
Qed.
Lemma get_node_order E1 E2 h e n : wf_env E1 -> wf_env E2 -> reachable h -> printed_apart h e -> get_attribute_node E1 h e n = get_attribute_node E2 h e n.
Proof.
  intros H1 H2 Hr Hap. pose proof (reachable_inv h Hr) as HI. unfold get_attribute_node. destruct (get_node h e) as [ne| | |] eqn:He; try done. cbn [rbind].
  apply get_node_ok in He. destruct (is_type NElement ne) eqn:Ht; [|done]. apply is_type_true in Ht. destruct (name_from_str n) as [nm| | |]; try done. f_equal.
  destruct (el_ext h e ne HI He Ht) as (attrs & nss & Hx). rewrite Hx. pose proof (attributes_el h e ne _ _ He Ht Hx) as Hat.
  destruct (C39_keyed_by_name h e attrs Hr Hat) as [Hnd _]. apply (lookup_attr_order E1 E2 (fun k => str_eqb (name_to_string k) (name_to_string nm))); try done.
  intros k1 a1 k2 a2 K1 K2 P1%str_eqb_true P2%str_eqb_true. eapply Hap; try done. congruence.
Qed.
Lemma get_node_ns_order E1 E2 h e u l : wf_env E1 -> wf_env E2 -> reachable h -> expanded_apart h e -> get_attribute_node_ns E1 h e u l = get_attribute_node_ns E2 h e u l.
Proof.
  intros H1 H2 Hr Hap. pose proof (reachable_inv h Hr) as HI. unfold get_attribute_node_ns. destruct (get_node h e) as [ne| | |] eqn:He; try done. cbn [rbind].
  apply get_node_ok in He. destruct (is_type NElement ne) eqn:Ht; [|done]. apply is_type_true in Ht. destruct (name_new_ns u l) as [nm| | |]; try done. f_equal.
  destruct (el_ext h e ne HI He Ht) as (attrs & nss & Hx). rewrite Hx. pose proof (attributes_el h e ne _ _ He Ht Hx) as Hat.
  destruct (C39_keyed_by_name h e attrs Hr Hat) as [Hnd _]. apply (lookup_attr_order E1 E2 (by_ns u l)); try done.
  intros k1 a1 k2 a2 K1 K2 [P1 P2]%by_ns_true [P3 P4]%by_ns_true. eapply Hap; try done; congruence.
Qed.
(** The removals depend on it only if two attributes of the element are printed alike (have the same expanded name). *)
Theorem C71_remove : forall E1 E2 h e n, wf_env E1 -> wf_env E2 -> reachable h -> printed_apart h e -> exec E1 (ORemoveAttribute e n) h = exec E2 (ORemoveAttribute e n) h.
Proof.
  intros E1 E2 h e n H1 H2 Hr Hap. cbn [exec]. unfold out. apply bind_cong; [|done]. unfold remove_attribute. apply bind_cong; [|done].
  unfold lift. by rewrite (get_node_order E1 E2).
Qed.
Print Assumptions C71_remove.
Theorem C71_remove_ns : forall E1 E2 h e u l, wf_env E1 -> wf_env E2 -> reachable h -> expanded_apart h e -> exec E1 (ORemoveAttributeNs e u l) h = exec E2 (ORemoveAttributeNs e u l) h.
Proof.
  intros E1 E2 h e u l H1 H2 Hr Hap. cbn [exec]. unfold out. apply bind_cong; [|done]. unfold remove_attribute_ns. apply bind_cong; [|done].
  unfold lift. by rewrite (get_node_ns_order E1 E2).
Qed.
Print Assumptions C71_remove_ns.

(** Reads. *)
Definition order_free (q : query) : bool :=
  match q with
  | QToString _ | QGetAttribute _ _ | QGetAttributeNode _ _ | QGetAttributeNs _ _ _ | QGetAttributeNodeNs _ _ _ | QGetPrefix _ _ | QResolvePrefix _ _ => false
  | _ => true
  end.
Lemma find_first_exists {A} (p : A -> bool) l : (exists x, find_first p l = Some x /\ In x l /\ p x = true) \/ find_first p l = None /\ forall x, In x l -> p x = false.
Proof.
  induction l as [|y l IH]; [by right|]. cbn. destruct (p y) eqn:Hy.
  - left. exists y. split; [done|]. split; [by left|done].
  - destruct IH as [(x & H1 & H2 & H3)|[H1 H2]]; [left; exists x; split; [done|]; split; [by right|done]|right]. split; [done|]. by intros x [<-|Hx]; [|apply H2].
Qed.
Theorem C71_reads : forall E1 E2 h q, wf_env E1 -> wf_env E2 -> same_but_order E1 E2 -> order_free q = true -> ask E1 h q = ask E2 h q.
Proof.
  intros E1 E2 h q H1 H2 [HC Hk] Hq. destruct q; try discriminate Hq; cbn [ask]; lazymatch goal with |- context [E1] => idtac | _ => reflexivity end.
  - by rewrite (attr_value_cong E1 E2).
  - destruct E1, E2. cbn in Hk. by rewrite Hk.
  - f_equal. unfold contains_mapped_namespace, get_prefix. destruct (add_namespaces h i) as [[]| | |]; try done. cbn [rbind negb].
    destruct (get_node h i) as [n| | |]; try done. cbn [rbind]. f_equal.
    destruct (find_first_exists (fun kv => str_eqb kv.2 uri) (e_ord_ns E1 (own_namespaces n))) as [([k1 v1] & -> & I1 & P1)|[-> N1]],
      (find_first_exists (fun kv => str_eqb kv.2 uri) (e_ord_ns E2 (own_namespaces n))) as [([k2 v2] & -> & I2 & P2)|[-> N2]]; [by destruct k1, k2| | |done].
    + rewrite (In_perm _ _ _ (wf_ord_ns E1 H1 (own_namespaces n))), <- (In_perm _ _ _ (wf_ord_ns E2 H2 (own_namespaces n))) in I1. by rewrite (N2 _ I1) in P1.
    + rewrite (In_perm _ _ _ (wf_ord_ns E2 H2 (own_namespaces n))), <- (In_perm _ _ _ (wf_ord_ns E1 H1 (own_namespaces n))) in I2. by rewrite (N1 _ I2) in P2.
Qed.
Print Assumptions C71_reads.

Theorem C71_get : forall E1 E2 h e n, wf_env E1 -> wf_env E2 -> same_but_order E1 E2 -> reachable h -> printed_apart h e ->
  ask E1 h (QGetAttributeNode e n) = ask E2 h (QGetAttributeNode e n) /\ ask E1 h (QGetAttribute e n) = ask E2 h (QGetAttribute e n).
Proof.
  intros E1 E2 h e n H1 H2 [HC _] Hr Hap. cbn [ask]. rewrite (get_node_order E1 E2) by done. split; [reflexivity|]. apply (f_equal (ans AOptStr)).
  unfold get_attribute. rewrite (get_node_order E1 E2) by done. apply rbind_cong. intros o. unfold value_of_attribute_node. destruct o as [a|]; [|reflexivity].
  by rewrite (attr_value_cong E1 E2).
Qed.
Print Assumptions C71_get.
Theorem C71_get_ns : forall E1 E2 h e u l, wf_env E1 -> wf_env E2 -> same_but_order E1 E2 -> reachable h -> expanded_apart h e ->
  ask E1 h (QGetAttributeNodeNs e u l) = ask E2 h (QGetAttributeNodeNs e u l) /\ ask E1 h (QGetAttributeNs e u l) = ask E2 h (QGetAttributeNs e u l).
Proof.
  intros E1 E2 h e u l H1 H2 [HC _] Hr Hap. cbn [ask]. rewrite (get_node_ns_order E1 E2) by done. split; [reflexivity|]. apply (f_equal (ans AOptStr)).
  unfold get_attribute_ns. rewrite (get_node_ns_order E1 E2) by done. apply rbind_cong. intros o. unfold value_of_attribute_node. destruct o as [a|]; [|reflexivity].
  by rewrite (attr_value_cong E1 E2).
Qed.
Print Assumptions C71_get_ns.
(** Looking a prefix up depends on it only where two prefixes are mapped to the same URI. *)
Definition mapped_once (h : heap) (u : str) : Prop := forall i p q, maps h i p u -> maps h i q u -> p = q.
Lemma get_prefix_order E1 E2 h i u : wf_env E1 -> wf_env E2 -> reachable h -> mapped_once h u -> get_prefix E1 h i u = get_prefix E2 h i u.
Proof.
  intros H1 H2 Hr Hu. unfold get_prefix. apply rbind_cong. intros b. destruct (negb b); [done|]. destruct (get_node h i) as [n| | |] eqn:Hn; try done. cbn [rbind]. f_equal.
  apply get_node_ok in Hn. destruct (own_maps h i n (reachable_inv h Hr) Hn) as [Hm _].
  assert (G : find_first (fun kv => str_eqb kv.2 u) (e_ord_ns E1 (own_namespaces n)) = find_first (fun kv => str_eqb kv.2 u) (e_ord_ns E2 (own_namespaces n))); [|by rewrite G].
  destruct (find_first_exists (fun kv => str_eqb kv.2 u) (own_namespaces n)) as [([k v] & _ & I1 & P1)|[_ N1]].
  - assert (Huniq : forall y, In y (own_namespaces n) -> str_eqb y.2 u = true -> y = (k, v)).
    { intros [k' v'] I2 P2. cbn in P1, P2. apply str_eqb_true in P1, P2. subst v v'. f_equal. eapply Hu; by apply Hm. }
    rewrite !(find_first_some _ _ (k, v)); try done.
    + by rewrite (In_perm _ _ _ (wf_ord_ns E2 H2 _)).
    + intros y. rewrite (In_perm _ _ _ (wf_ord_ns E2 H2 _)). apply Huniq.
    + by rewrite (In_perm _ _ _ (wf_ord_ns E1 H1 _)).
    + intros y. rewrite (In_perm _ _ _ (wf_ord_ns E1 H1 _)). apply Huniq.
  - rewrite !find_first_none; [done| |].
    + intros y. rewrite (In_perm _ _ _ (wf_ord_ns E2 H2 _)). apply N1.
    + intros y. rewrite (In_perm _ _ _ (wf_ord_ns E1 H1 _)). apply N1.
Qed.
Theorem C71_prefix : forall E1 E2 h i u, wf_env E1 -> wf_env E2 -> reachable h -> mapped_once h u ->
  ask E1 h (QGetPrefix i u) = ask E2 h (QGetPrefix i u) /\ ask E1 h (QResolvePrefix i u) = ask E2 h (QResolvePrefix i u).
Proof.
  intros E1 E2 h i u H1 H2 Hr Hu. cbn [ask]. rewrite (get_prefix_order E1 E2) by done. split; [done|]. f_equal. unfold resolve_prefix. generalize (walk_fuel h).
  intros k. revert i. induction k as [|k IH]; intros i; [done|]. cbn [resolve_prefix_rec]. apply rbind_cong. intros b. destruct (negb b); [done|].
  rewrite (get_prefix_order E1 E2) by done. apply rbind_cong. intros r. destruct r; try done. apply rbind_cong. intros n. destruct (n_parent n) as [q|]; [|done].
  destruct (alive h q); [apply IH|done].
Qed.
Print Assumptions C71_prefix.
(** Printing depends on it only where an element has two attributes. *)
Definition few_attributes (h : heap) : Prop := forall e l, attributes h e = Ok l -> (length l <= 1)%nat.
Lemma perm_short {A} (l l' : list A) : l' ≡ₚ l -> (length l <= 1)%nat -> l' = l.
Proof. intros Hp Hl. destruct l as [|x [|y l]]; cbn in Hl; [by apply Permutation_nil_r in Hp|by apply Permutation_singleton_r in Hp|lia]. Qed.
Lemma fmt_list_cong {A} (f g : A -> res str) l : (forall x, f x = g x) -> fmt_list f l = fmt_list g l.
Proof.
  intros H. unfold fmt_list. assert (G : concat_res (fun x => let? s := f x in Ok [s]) l = concat_res (fun x => let? s := g x in Ok [s]) l); [|by rewrite G].
  induction l as [|x l IH]; [done|]. cbn [concat_res]. rewrite H. apply rbind_cong. intros s. by rewrite IH.
Qed.
Theorem C71_print : forall E1 E2 h i, wf_env E1 -> wf_env E2 -> same_but_order E1 E2 -> reachable h -> few_attributes h -> to_string E1 h i = to_string E2 h i.
Proof.
  intros E1 E2 h i H1 H2 [HC _] Hr Hf. unfold to_string. generalize (S (walk_fuel h)). intros k. revert i. induction k as [|k IH]; intros i; [reflexivity|]. cbn [fmt_node].
  destruct (get_node h i) as [n| | |] eqn:Hn; [|reflexivity..]. cbn [rbind]. apply get_node_ok in Hn.
  assert (HL : fmt_list (fmt_node k E1 h) (n_children n) = fmt_list (fmt_node k E2 h) (n_children n)) by (apply fmt_list_cong; exact IH).
  destruct (n_type n) eqn:Ht; lazymatch goal with |- context [E1] => idtac | _ => reflexivity end.
  - destruct (attributes h i) as [l| | |] eqn:Hl; [|reflexivity..]. cbn [rbind]. rewrite HL.
    rewrite (perm_short _ _ (wf_ord_attr E1 H1 l) (Hf i l Hl)), (perm_short _ _ (wf_ord_attr E2 H2 l) (Hf i l Hl)).
    rewrite (fmt_list_cong (fun p => let? s := fmt_node k E1 h p.2 in Ok (lit " " ++ s)) (fun p => let? s := fmt_node k E2 h p.2 in Ok (lit " " ++ s))); [reflexivity|].
    intros p. rewrite IH. reflexivity.
  - unfold fmt_attribute. rewrite (attr_value_cong E1 E2) by done. reflexivity.
  - apply rbind_cong. intros d. apply rbind_cong. intros dt. rewrite HL. destruct dt as [t|]; [|reflexivity]. rewrite IH. reflexivity.
  - destruct (inv_node h (reachable_inv h Hr) i n Hn) as (Hex & _). unfold ext_ok in Hex. rewrite Ht in Hex. destruct (n_ext n) as [| | |e t p s x| | |]; try contradiction Hex; try discriminate Hex; try (destruct Hex as [Hex _]; discriminate Hex).
    destruct Hex as (_ & -> & ->). rewrite !(proj1 (Permutation_nil_r _) (wf_ord_attr _ H1 [])), !(proj1 (Permutation_nil_r _) (wf_ord_attr _ H2 [])). reflexivity.
  - rewrite HL. reflexivity.
Qed.
Print Assumptions C71_print.

(** The exceptions are real (the lookups: C40_any_element_refuted, C46_one_answer_refuted). *)
Definition ex_order_ops : list op :=
  [OCreateDocument None (Some (lit "r")) None options_new; OSetAttributeNs 1 (lit "urn:u") (lit "p:b") (lit "v"); OSetAttribute 1 (lit "p:b") (lit "w")].
Definition ex_order : heap := default empty_heap (run env0 ex_order_ops empty_heap).
Theorem C71_remove_refuted : exists E1 E2 h e n h1 h2 a1 a2, wf_env E1 /\ wf_env E2 /\ same_but_order E1 E2 /\ reachable h /\
  exec E1 (ORemoveAttribute e n) h = (h1, Ok None) /\ exec E2 (ORemoveAttribute e n) h = (h2, Ok None) /\
  attributes h1 e = Ok [a1] /\ attributes h2 e = Ok [a2] /\ a1 <> a2.
Proof.
  exists env0, ex_env_rev, ex_order, 1, (lit "p:b"), (exec env0 (ORemoveAttribute 1 (lit "p:b")) ex_order).1, (exec ex_env_rev (ORemoveAttribute 1 (lit "p:b")) ex_order).1.
  do 2 eexists. split; [exact wf_env0|]. split; [exact wf_env_rev|]. split; [by repeat split|]. split; [apply (run0_reachable ex_order_ops); by vm_compute|].
  split; [by vm_compute|]. split; [by vm_compute|]. split; [by vm_compute|]. split; [by vm_compute|]. by vm_compute.
Qed.
Print Assumptions C71_remove_refuted.
Theorem C71_print_refuted : exists E1 E2 h i, wf_env E1 /\ wf_env E2 /\ same_but_order E1 E2 /\ reachable h /\ to_string E1 h i <> to_string E2 h i.
Proof.
  exists env0, ex_env_rev, ex_attr, 1. split; [exact wf_env0|]. split; [exact wf_env_rev|]. split; [by repeat split|]. split; [exact ex_attr_reachable|]. by vm_compute.
Qed.
Print Assumptions C71_print_refuted.
Definition ex_few_ops : list op := [OCreateDocument None (Some (lit "r")) None options_new; OSetAttribute 1 (lit "a") (lit "b")].
Definition ex_few : heap := default empty_heap (run env0 ex_few_ops empty_heap).
Lemma few_checked h : map_fold (fun _ n b => b && (length (match n_ext n with XElement l _ => l | _ => [] end) <=? 1)%nat) true (h_nodes h) = true -> few_attributes h.
Proof.
  intros H e l Hl. unfold attributes, get_node in Hl. destruct (h_nodes h !! e) as [n|] eqn:He; [|done]. cbn in Hl.
  revert H. set (f := fun (_ : id) n b => b && (length (match n_ext n with XElement l _ => l | _ => [] end) <=? 1)%nat).
  assert (G : forall m : gmap id node, map_fold f true m = true -> forall e n, m !! e = Some n -> (length (match n_ext n with XElement l _ => l | _ => [] end) <= 1)%nat).
  { apply (map_fold_ind (fun r m => r = true -> forall e n, m !! e = Some n -> (length (match n_ext n with XElement l _ => l | _ => [] end) <= 1)%nat)); [done|].
    intros j x m r Hj IH [H1 H2%Nat.leb_le]%andb_true_iff e' n' [[-> ->]|[_ Hm]]%lookup_insert_Some; [done|]. by eapply IH. }
  intros H. specialize (G _ H e n He). destruct (is_type NElement n); [|injection Hl as <-; cbn; lia]. destruct (n_ext n); injection Hl as <-; cbn in *; try lia.
Qed.
Example C71_example : same_but_order env0 ex_env_rev /\ printed_apart ex_attr 1 /\
  (exec env0 (ORemoveAttribute 1 (lit "id")) ex_attr).2 = Ok None /\
  Forall (fun o => removes_by_name o = false) ex_attr_ops /\ few_attributes ex_few /\ to_string ex_env_rev ex_few 1 = Ok (lit "<r a=""b""></r>").
Proof.
  split; [by repeat split|]. split; [apply C40_example|]. split; [by vm_compute|]. split; [by repeat constructor|]. split; [apply few_checked; by vm_compute|by vm_compute].
Qed.

(** ** C72: builds with and without overflow checks *)
Definition overflowed {A} (r : res A) : Prop := r = Panic POverflow.
Definition agree {A} (r1 r2 : res A) : Prop := r1 = r2 \/ overflowed r1.
Definition agreeM {A} (m1 m2 : M A) : Prop := forall h, m1 h = m2 h \/ overflowed (m1 h).2.
Lemma agree_bind {A B} (r1 r2 : res A) (k1 k2 : A -> res B) : agree r1 r2 -> (forall a, agree (k1 a) (k2 a)) -> agree (rbind r1 k1) (rbind r2 k2).
Proof. intros [->|H] Hk; [destruct r2; [apply Hk|by left..]|right; unfold overflowed in *; by rewrite H]. Qed.
Lemma agreeM_bind {A B} (m1 m2 : M A) (k1 k2 : A -> M B) : agreeM m1 m2 -> (forall a, agreeM (k1 a) (k2 a)) -> agreeM (bind m1 k1) (bind m2 k2).
Proof.
  intros Hm Hk h. unfold bind. destruct (Hm h) as [->|H]; [destruct (m2 h) as [h' [a| | |]]; [apply Hk|by left..]|]. right. unfold overflowed in *. destruct (m1 h) as [h' r]. cbn in H. by rewrite H.
Qed.
Lemma agreeM_refl {A} (m : M A) : agreeM m m.
Proof. intros h. by left. Qed.
Lemma agreeM_lift {A} (f g : heap -> res A) : (forall h, agree (f h) (g h)) -> agreeM (lift f) (lift g).
Proof. intros H h. unfold lift. destruct (H h) as [->|Hv]; [by left|by right]. Qed.
Section profile.
  Context (E1 E2 : env) (HC1 : e_checked E1 = true) (HC2 : e_checked E2 = false).
  Lemma add_agree a b : agree (usize_add (e_checked E1) a b) (usize_add (e_checked E2) a b).
  Proof. rewrite HC1. unfold usize_add. destruct (_ <? _)%N; [by left|by right]. Qed.
  Lemma substring_agree h i o k : agree (substring_data E1 h i o k) (substring_data E2 h i o k).
  Proof. unfold substring_data. apply agree_bind; [apply add_agree|]. intros a. by left. Qed.
  Lemma replace_agree i o k x : agreeM (replace_data E1 i o k x) (replace_data E2 i o k x).
  Proof.
    unfold replace_data. apply agreeM_bind; [apply agreeM_refl|]. intros n. apply agreeM_bind; [|intros v; apply agreeM_refl].
    apply agreeM_lift. intros _. unfold replace_value. destruct (n_value n) as [v|].
    - destruct (_ <=? _)%N; [by left|]. apply agree_bind; [apply add_agree|]. intros a. by left.
    - apply agree_bind; [apply add_agree|]. intros a. by left.
  Qed.
  Lemma delete_agree i o k : agreeM (delete_data E1 i o k) (delete_data E2 i o k).
  Proof.
    unfold delete_data. apply agreeM_bind; [apply agreeM_lift; intros _; apply add_agree|]. intros e. destruct (_ =? _)%N; [apply agreeM_refl|apply replace_agree].
  Qed.
  Lemma split_agree i o : agreeM (DomOps.split E1 i o) (DomOps.split E2 i o).
  Proof.
    unfold DomOps.split. apply agreeM_bind; [apply agreeM_refl|]. intros n. destruct (negb _); [apply agreeM_refl|].
    apply agreeM_bind; [apply agreeM_refl|]. intros len. apply agreeM_bind; [|intros d; apply agreeM_refl].
    destruct (_ <=? _)%N; [apply agreeM_refl|]. apply agreeM_bind; [apply agreeM_lift; intros h; apply substring_agree|]. intros s.
    apply agreeM_bind; [apply delete_agree|]. intros _. apply agreeM_refl.
  Qed.
End profile.
(** Every call does the same in both, unless the checked build stops it with an overflow. *)
Theorem C72_calls : forall E1 E2 o h, debug_and_release E1 E2 -> exec E1 o h = exec E2 o h \/ adds_lengths o = true /\ (exec E1 o h).2 = Panic POverflow.
Proof.
  intros E1 E2 o h (H1 & H2 & HC & Ha & Hn). destruct (adds_lengths o) eqn:Ho; [|left; by apply exec_cong; [|by rewrite Ho|]].
  assert (G : forall A (f : A -> option id) (m1 m2 : M A), agreeM m1 m2 -> (out f m1) h = (out f m2) h \/ true = true /\ ((out f m1) h).2 = Panic POverflow).
  { intros A f m1 m2 Hm. destruct (agreeM_bind m1 m2 (fun a => ret (f a)) (fun a => ret (f a)) Hm (fun a => agreeM_refl _) h) as [?|?]; [by left|by right]. }
  destruct o; try discriminate Ho; cbn [exec]; apply G.
  - unfold insert_data. destruct (is_nil _); [apply agreeM_refl|by apply replace_agree].
  - by apply delete_agree.
  - by apply replace_agree.
  - by apply split_agree.
Qed.
Print Assumptions C72_calls.
Lemma print_agree E1 E2 h i : debug_and_release E1 E2 -> to_string E1 h i = to_string E2 h i.
Proof.
  intros (_ & _ & HC & Ha & _). unfold to_string. generalize (S (walk_fuel h)). intros k. revert i. induction k as [|k IH]; intros i; [reflexivity|]. cbn [fmt_node].
  apply rbind_cong. intros n. rewrite <- Ha.
  assert (HL : forall l, fmt_list (fmt_node k E1 h) l = fmt_list (fmt_node k E2 h) l) by (intros l; apply fmt_list_cong; exact IH).
  assert (HP : forall l, fmt_list (fun p : Name * id => fmt_node k E1 h p.2) l = fmt_list (fun p : Name * id => fmt_node k E2 h p.2) l) by (intros l; apply fmt_list_cong; intros p; apply IH).
  destruct (n_type n) eqn:Ht; lazymatch goal with |- context [E1] => idtac | _ => reflexivity end.
  - apply rbind_cong. intros l. rewrite HL.
    rewrite (fmt_list_cong (fun p => let? s := fmt_node k E1 h p.2 in Ok (lit " " ++ s)) (fun p => let? s := fmt_node k E2 h p.2 in Ok (lit " " ++ s))); [reflexivity|].
    intros p. rewrite IH. reflexivity.
  - unfold fmt_attribute. rewrite (attr_value_cong E1 E2) by done. reflexivity.
  - apply rbind_cong. intros d. apply rbind_cong. intros dt. rewrite HL. destruct dt as [t|]; [|reflexivity]. rewrite IH. reflexivity.
  - destruct (n_ext n); rewrite !HP; reflexivity.
  - rewrite HL. reflexivity.
Qed.
Theorem C72_reads : forall E1 E2 h q, debug_and_release E1 E2 -> ask E1 h q = ask E2 h q \/ (exists i o k, q = QSubstring i o k) /\ ask E1 h q = Panic POverflow.
Proof.
  intros E1 E2 h q HD. pose proof HD as (H1 & H2 & HC & Ha & Hn). pose proof (attr_value_cong E1 E2 HC h) as HV.
  assert (HR : forall i s, resolve_prefix E1 h i s = resolve_prefix E2 h i s).
  { unfold resolve_prefix. generalize (walk_fuel h). intros k i s. revert i. induction k as [|k IH]; intros i; [reflexivity|]. cbn [resolve_prefix_rec].
    apply rbind_cong. intros b. destruct (negb b); [reflexivity|]. unfold get_prefix. rewrite Hn. apply rbind_cong. intros r. destruct r; try reflexivity.
    apply rbind_cong. intros n. destruct (n_parent n) as [q'|]; [|reflexivity]. destruct (alive h q'); [apply IH|reflexivity]. }
  assert (HO : forall o, value_of_attribute_node E1 h o = value_of_attribute_node E2 h o).
  { intros [a|]; [|reflexivity]. unfold value_of_attribute_node. by rewrite HV. }
  destruct q; cbn [ask]; lazymatch goal with |- context [E1] => idtac | _ => left; reflexivity end.
  - left. rewrite (print_agree E1 E2) by done. reflexivity.
  - left. rewrite HV. reflexivity.
  - destruct (substring_agree E1 E2 H1 h i off cnt) as [->|H]; [by left|right; split; [by eexists _, _, _|]]. unfold overflowed in H. by rewrite H.
  - left. apply (f_equal (ans AOptStr)). unfold get_attribute, get_attribute_node, lookup_attr. rewrite Ha. apply rbind_cong. exact HO.
  - left. unfold get_attribute_node, lookup_attr. rewrite Ha. reflexivity.
  - left. apply (f_equal (ans AOptStr)). unfold get_attribute_ns, get_attribute_node_ns, lookup_attr. rewrite Ha. apply rbind_cong. exact HO.
  - left. unfold get_attribute_node_ns, lookup_attr. rewrite Ha. reflexivity.
  - left. unfold contains_mapped_namespace, get_prefix. rewrite Hn. reflexivity.
  - left. unfold get_prefix. rewrite Hn. reflexivity.
  - left. rewrite HR. reflexivity.
Qed.
Print Assumptions C72_reads.
(** So a history that runs without panic in the checked build runs identically in the other one. *)
Theorem C72_histories : forall E1 E2 ops h h', debug_and_release E1 E2 -> run E1 ops h = Some h' -> run E2 ops h = Some h'.
Proof.
  intros E1 E2 ops h h' HD. revert h. induction ops as [|o ops IH]; intros h; [done|]. cbn [run]. destruct (typed_op h o); [|done].
  destruct (C72_calls E1 E2 o h HD) as [->|[_ H]].
  - destruct (exec E2 o h) as [h1 [| | |]]; try done; apply IH.
  - destruct (exec E1 o h) as [h1 r]. cbn in H. by rewrite H.
Qed.
Print Assumptions C72_histories.
(** When the overflow can happen: only if offset plus count exceeds [usize::MAX]; for [split_text], only if the data is that long. *)
Definition end_position_fits (h : heap) (o : op) : Prop :=
  match o with
  | OInsertData _ off _ => (off < usize_mod)%N
  | ODeleteData _ off cnt | OReplaceData _ off cnt _ => (off + cnt < usize_mod)%N
  | OSplit i _ => forall n v, h_nodes h !! i = Some n -> n_value n = Some v -> fits (escape v)
  | _ => True
  end.
Lemma add_fits_same b1 b2 x y : (x + y < usize_mod)%N -> usize_add b1 x y = usize_add b2 x y.
Proof. intros H. by rewrite !usize_add_fits. Qed.
Lemma replace_fits E1 E2 i o k x h : (o + k < usize_mod)%N -> replace_data E1 i o k x h = replace_data E2 i o k x h.
Proof.
  intros H. unfold replace_data. apply bind_cong; [reflexivity|]. intros n h1. apply bind_cong; [|reflexivity]. unfold lift. f_equal. unfold replace_value.
  by rewrite (add_fits_same (e_checked E1) (e_checked E2)).
Qed.
Lemma delete_fits E1 E2 i o k h : (o + k < usize_mod)%N -> delete_data E1 i o k h = delete_data E2 i o k h.
Proof.
  intros H. unfold delete_data. apply bind_cong; [unfold lift; by rewrite (add_fits_same (e_checked E1) (e_checked E2))|]. intros e h1.
  destruct (_ =? _)%N; [reflexivity|by apply replace_fits].
Qed.
Theorem C72_fits : forall E1 E2 o h, debug_and_release E1 E2 -> end_position_fits h o -> exec E1 o h = exec E2 o h.
Proof.
  intros E1 E2 o h HD Hf. pose proof HD as (H1 & H2 & HC & Ha & Hn). destruct (adds_lengths o) eqn:Ho; [|by apply exec_cong; [|by rewrite Ho|]].
  destruct o; try discriminate Ho; cbn [exec end_position_fits] in *; unfold out; (apply bind_cong; [|reflexivity]).
  - unfold insert_data. destruct (is_nil _); [reflexivity|]. apply replace_fits. lia.
  - by apply delete_fits.
  - by apply replace_fits.
  - unfold DomOps.split. destruct (h_nodes h !! i) as [n|] eqn:Hi; [|unfold bind, getM, lift, get_node; by rewrite Hi].
    rewrite !(bind_node _ _ _ _ Hi). destruct (negb _); [reflexivity|].
    destruct (length_ h i) as [len| | |] eqn:Hl; [|unfold bind, lift; by rewrite Hl..]. rewrite !(bind_read _ _ _ _ Hl).
    apply bind_cong; [|reflexivity]. destruct (N.leb_spec len off); [reflexivity|].
    assert (Hlen : (off + (len - off) < usize_mod)%N).
    { unfold length_, data, get_node in Hl. rewrite Hi in Hl. cbn in Hl. destruct (n_value n) as [v|] eqn:Hv; [|injection Hl as <-; lia].
      specialize (Hf n v eq_refl Hv). unfold fits in Hf. pose proof (escaped_blen v (escape v) (escape_escaped v)) as [Hge _]. destruct (_ || _); injection Hl as <-; lia. }
    apply bind_cong; [unfold lift, substring_data; by rewrite (add_fits_same (e_checked E1) (e_checked E2))|]. intros s h1.
    apply bind_cong; [by apply delete_fits|reflexivity].
Qed.
Print Assumptions C72_fits.
(** Without checks the sum wraps: a call the checked build stops may then write. *)
Definition ex_release : env := mkEnv false (e_letter env0) (e_digit env0) (fun l => l) (fun l => l).
Definition ex_wrap_ops : list op := [OCreateDocument None (Some (lit "r")) None options_new; OCreateText 0 (lit "abc"); OUnsetNodeValue 2].
Definition ex_wrap : heap := default empty_heap (run env0 ex_wrap_ops empty_heap).
Example C72_example : debug_and_release env0 ex_release /\ wf_env ex_release /\ end_position_fits ex_attr (ODeleteData 4 1 1) /\
  run env0 ex_attr_ops empty_heap = Some ex_attr /\ run ex_release ex_attr_ops empty_heap = Some ex_attr.
Proof.
  split; [by repeat split|]. split; [pose proof wf_env0 as [A1 A2 A3 A4 A5]; by split|]. split; [done|]. split; by vm_compute.
Qed.
Theorem C72_same_refuted : exists E1 E2 h i o k x v, debug_and_release E1 E2 /\ wf_env E1 /\ wf_env E2 /\ reachable h /\ (o < usize_mod)%N /\ (k < usize_mod)%N /\
  exec E1 (OReplaceData i o k x) h = (h, Panic POverflow) /\ (exec E2 (OReplaceData i o k x) h).2 = Ok None /\ ask E2 (exec E2 (OReplaceData i o k x) h).1 (QData i) = Ok (AOptStr (Some v)).
Proof.
  exists env0, ex_release, ex_wrap, 2, 1%N, 18446744073709551615%N, (lit "new"). eexists. split; [apply C72_example|]. split; [exact wf_env0|]. split; [apply C72_example|].
  split; [apply (run0_reachable ex_wrap_ops); by vm_compute|]. split; [done|]. split; [done|]. split; [by vm_compute|]. split; by vm_compute.
Qed.
Print Assumptions C72_same_refuted.
