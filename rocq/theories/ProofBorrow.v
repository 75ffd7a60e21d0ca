(** * ProofBorrow: the mutators with borrow checks do what the plain ones do *)
From Coq Require Import Lia.
From Verif Require Import SpecBorrow SpecName ProofName ProofInv ProofWildInv ProofSteps ProofElem ProofAttr.

(** ** Guards *)
Lemma borrow_ok {A} i n (k : node -> B A) g h : h_nodes h !! i = Some n -> (i, true) ∉ g -> borrow i k g h = k n ((i, false) :: g) h.
Proof. intros Hn Hg. unfold borrow. by rewrite Hn, bool_decide_false. Qed.
Lemma borrow_none {A} i (k : node -> B A) g h : h_nodes h !! i = None -> borrow i k g h = (h, Panic PNoHandle).
Proof. intros Hn. unfold borrow. by rewrite Hn. Qed.
Lemma borrow_mut_ok {A} i n (k : node -> B A) g h : h_nodes h !! i = Some n -> (i, true) ∉ g -> (i, false) ∉ g ->
  borrow_mut i k g h = k n ((i, true) :: g) h.
Proof. intros Hn H1 H2. unfold borrow_mut. rewrite Hn, bool_decide_false by tauto. done. Qed.
Lemma borrow_mut_none {A} i (k : node -> B A) g h : h_nodes h !! i = None -> borrow_mut i k g h = (h, Panic PNoHandle).
Proof. intros Hn. unfold borrow_mut. by rewrite Hn. Qed.
Lemma borrow_mut_held {A} i n b (k : node -> B A) g h : h_nodes h !! i = Some n -> (i, b) ∈ g -> borrow_mut i k g h = (h, Panic PBorrow).
Proof. intros Hn Hg. unfold borrow_mut. rewrite Hn, bool_decide_true; [done|]. destruct b; tauto. Qed.
Lemma borrow_held {A} i n (k : node -> B A) g h : h_nodes h !! i = Some n -> (i, true) ∈ g -> borrow i k g h = (h, Panic PBorrow).
Proof. intros Hn Hg. unfold borrow. by rewrite Hn, bool_decide_true. Qed.
Lemma write_ok i f g h : (i, true) ∈ g -> write i f g h = modifyM i f h.
Proof. intros Hg. unfold write. by rewrite bool_decide_true. Qed.

(** Shared guards only. *)
Definition nomut (g : guards) : Prop := forall i, (i, true) ∉ g.
Lemma nomut_nil : nomut []. Proof. intros i. apply not_elem_of_nil. Qed.
Lemma nomut_cons i g : nomut g -> nomut ((i, false) :: g).
Proof. intros H j Hj. apply elem_of_cons in Hj as [[=]|Hj]. by eapply H. Qed.
Lemma notin_nil (x : id * bool) : x ∉ ([] : guards). Proof. apply not_elem_of_nil. Qed.
#[export] Hint Resolve nomut_nil nomut_cons notin_nil : core.
Ltac gd := first [ done | by auto | apply not_elem_of_cons; split; [congruence|gd] | apply elem_of_list_here | apply elem_of_list_further; gd ].

Lemma b_bind_eq {A C} (m : B A) (k : A -> B C) g h : b_bind m k g h = bind (m g) (fun a => k a g) h. Proof. done. Qed.
Lemma b_bind_lift {A C} (m : B A) (k : A -> B C) (r : heap -> res A) g h : m g h = (h, r h) ->
  b_bind m k g h = bind (lift r) (fun a => k a g) h.
Proof. intros H. unfold b_bind, bind, lift. by rewrite H. Qed.
Lemma b_bind_ok {A C} (m : B A) (k : A -> B C) a g h h1 : m g h = (h1, Ok a) -> b_bind m k g h = k a g h1.
Proof. intros H. unfold b_bind, bind. by rewrite H. Qed.
Lemma bind_cong' {A C} (m1 m2 : M A) (k1 k2 : A -> M C) h : m1 h = m2 h -> (forall a h', m2 h = (h', Ok a) -> k1 a h' = k2 a h') ->
  bind m1 k1 h = bind m2 k2 h.
Proof. intros H Hk. unfold bind. rewrite H. destruct (m2 h) as [h' [a|e|p|]]; eauto. Qed.

(** ** Reads *)
Section reads.
  Context (g : guards) (h : heap).
  Lemma b_node_name_eq i : (i, true) ∉ g -> b_node_name i g h = (h, node_name h i).
  Proof. intros Hg. unfold b_node_name, node_name, get_node. destruct (h_nodes h !! i) eqn:Hn; [by erewrite borrow_ok|by rewrite borrow_none]. Qed.
  Lemma b_node_value_eq i : (i, true) ∉ g -> b_node_value i g h = (h, node_value h i).
  Proof. intros Hg. unfold b_node_value, node_value, get_node. destruct (h_nodes h !! i) eqn:Hn; [by erewrite borrow_ok|by rewrite borrow_none]. Qed.
  Lemma b_node_type_eq i : (i, true) ∉ g -> b_node_type i g h = (h, node_type_of h i).
  Proof. intros Hg. unfold b_node_type, node_type_of, get_node. destruct (h_nodes h !! i) eqn:Hn; [by erewrite borrow_ok|by rewrite borrow_none]. Qed.
  Lemma b_child_nodes_eq i : (i, true) ∉ g -> b_child_nodes i g h = (h, child_nodes h i).
  Proof. intros Hg. unfold b_child_nodes, child_nodes, get_node. destruct (h_nodes h !! i) eqn:Hn; [by erewrite borrow_ok|by rewrite borrow_none]. Qed.
  Lemma b_is_eq t i : (i, true) ∉ g -> b_is t i g h = (h, let? n := get_node h i in Ok (is_type t n)).
  Proof. intros Hg. unfold b_is, get_node. destruct (h_nodes h !! i) eqn:Hn; [by erewrite borrow_ok|by rewrite borrow_none]. Qed.
  Lemma b_is_some t i n : h_nodes h !! i = Some n -> (i, true) ∉ g -> b_is t i g h = (h, Ok (is_type t n)).
  Proof. intros Hn Hg. unfold b_is. by erewrite borrow_ok. Qed.
  Lemma b_owner_document_eq i : (i, true) ∉ g -> b_owner_document i g h = (h, owner_document h i).
  Proof. intros Hg. unfold b_owner_document, owner_document, get_node. destruct (h_nodes h !! i) eqn:Hn; [by erewrite borrow_ok|by rewrite borrow_none]. Qed.
  Lemma b_doc_type_eq i : (i, true) ∉ g -> b_doc_type i g h = (h, doc_type h i).
  Proof. intros Hg. unfold b_doc_type, doc_type, get_node. destruct (h_nodes h !! i) eqn:Hn; [by erewrite borrow_ok|by rewrite borrow_none]. Qed.
  Lemma b_xml_declaration_eq i : (i, true) ∉ g -> b_xml_declaration i g h = (h, xml_declaration h i).
  Proof. intros Hg. unfold b_xml_declaration, xml_declaration, get_node. destruct (h_nodes h !! i) eqn:Hn; [by erewrite borrow_ok|by rewrite borrow_none]. Qed.
  Lemma b_parent_node_eq i : (i, true) ∉ g -> b_parent_node i g h = (h, parent_node h i).
  Proof.
    intros Hg. unfold b_parent_node, parent_node, get_node. destruct (h_nodes h !! i) as [n|] eqn:Hn; cbn [rbind].
    - rewrite (b_bind_ok _ _ _ _ _ _ (b_is_some _ _ _ Hn Hg)). destruct (is_type NAttribute n); [done|]. by erewrite borrow_ok.
    - unfold b_bind, bind, b_is. by rewrite borrow_none.
  Qed.
  Lemma b_sibling_eq pick i : nomut g -> b_sibling pick i g h =
    (h, let? n := get_node h i in
        if is_type NAttribute n then Ok None else
        match upgrade h (n_parent n) with
        | None => Ok None
        | Some p => let? np := get_node h p in
                    Ok match position i (n_children np) with None => None | Some k => pick k (n_children np) end
        end).
  Proof.
    intros Hg. unfold b_sibling, get_node. destruct (h_nodes h !! i) as [n|] eqn:Hn; cbn [rbind].
    2:{ unfold b_bind, bind, b_is. by rewrite borrow_none. }
    rewrite (b_bind_ok _ _ _ _ _ _ (b_is_some _ _ _ Hn (Hg i))). destruct (is_type NAttribute n); [done|].
    rewrite (borrow_ok i n) by done. unfold b_bind, b_upgrade, bind, lift. destruct (upgrade h (n_parent n)) as [p|]; [|done].
    destruct (h_nodes h !! p) eqn:Hp; cbn [rbind]; [erewrite borrow_ok; [done|done|]|by rewrite borrow_none]. by apply nomut_cons.
  Qed.
  Lemma b_previous_sibling_eq i : nomut g -> b_previous_sibling i g h = (h, previous_sibling h i).
  Proof.
    intros Hg. unfold b_previous_sibling. rewrite b_sibling_eq by done. unfold previous_sibling. f_equal.
    destruct (get_node h i) as [n| | |]; cbn [rbind]; try done. destruct (is_type NAttribute n); [done|]. destruct (upgrade h (n_parent n)) as [p|]; [|done].
    destruct (get_node h p) as [np| | |]; cbn [rbind]; try done. destruct (position i (n_children np)) as [[|k]|]; done.
  Qed.
  Lemma b_next_sibling_eq i : nomut g -> b_next_sibling i g h = (h, next_sibling h i).
  Proof.
    intros Hg. unfold b_next_sibling. rewrite b_sibling_eq by done. unfold next_sibling. f_equal.
    destruct (get_node h i) as [n| | |]; cbn [rbind]; try done. destruct (is_type NAttribute n); [done|]. destruct (upgrade h (n_parent n)) as [p|]; [|done].
    destruct (get_node h p) as [np| | |]; cbn [rbind]; try done. destruct (position i (n_children np)); done.
  Qed.
  Lemma b_data_eq i : (i, true) ∉ g -> b_data i g h = (h, data h i).
  Proof.
    intros Hg. unfold b_data, b_bind, bind. rewrite b_node_type_eq by done. unfold node_type_of, data. destruct (get_node h i) as [n| | |] eqn:Hn; cbn [rbind]; try done.
    rewrite b_node_value_eq by done. unfold node_value. rewrite Hn. cbn [rbind]. unfold b_ret, ret. done.
  Qed.
  Lemma b_length_eq i : (i, true) ∉ g -> b_length i g h = (h, length_ h i).
  Proof. intros Hg. unfold b_length, b_bind, bind. rewrite b_data_eq by done. unfold length_. by destruct (data h i). Qed.
  Lemma b_substring_eq E i o c : (i, true) ∉ g -> b_substring_data E i o c g h = (h, substring_data E h i o c).
  Proof.
    intros Hg. unfold b_substring_data, b_bind, b_pure, bind, substring_data, lift. destruct (usize_add _ o c) as [e| | |]; cbn [rbind]; try done.
    destruct (e =? o)%N; [done|]. unfold get_node. destruct (h_nodes h !! i) as [n|] eqn:Hn; [|by rewrite borrow_none]. by erewrite borrow_ok.
  Qed.
  Lemma b_is_child_allowed_eq p c np nc : h_nodes h !! p = Some np -> h_nodes h !! c = Some nc -> nomut g ->
    b_is_child_allowed p c g h = (h, Ok (is_child_allowed (n_type np) (n_type nc))).
  Proof. intros Hp Hc Hg. unfold b_is_child_allowed. rewrite (borrow_ok p np) by done. erewrite borrow_ok; [done|done|by apply nomut_cons]. Qed.
  Lemma b_any_element_eq l : nomut g -> b_any_element l g h = (h, any_element h l).
  Proof.
    intros Hg. induction l as [|c l IH]; [done|]. cbn [b_any_element any_element]. unfold b_bind, bind. rewrite b_node_type_eq by done. unfold node_type_of.
    destruct (get_node h c) as [n| | |]; cbn [rbind]; try done. unfold is_type. destruct (type_eqb (n_type n) NElement); [done|exact IH].
  Qed.
  Lemma b_check_eq s c : nomut g -> b_check_same_document s c g h = (h, check_same_document h s c).
  Proof.
    intros Hg. unfold b_check_same_document, check_same_document, b_bind, bind, b_upgrade, b_pure, lift. rewrite b_node_type_eq by done. unfold node_type_of, get_node.
    destruct (h_nodes h !! s) as [ns|] eqn:Hs; cbn [rbind]; [|done]. unfold is_type. destruct (type_eqb (n_type ns) NDocument).
    - destruct (h_nodes h !! c) as [nc|] eqn:Hc; cbn [rbind]; [|by rewrite borrow_none]. rewrite (borrow_ok c nc) by done.
      destruct (n_owner nc) as [d|]; [|done]. destruct (upgrade h (Some d)) as [d'|]; cbn [unwrap_opt rbind]; [|done]. by destruct (bool_decide (s = d')).
    - rewrite (borrow_ok s ns) by done. destruct (h_nodes h !! c) as [nc|] eqn:Hc; cbn [rbind]; [|by rewrite borrow_none].
      rewrite (borrow_ok c nc) by (done || by apply nomut_cons). destruct (n_owner ns) as [a|], (n_owner nc) as [b|]; try done.
      destruct (upgrade h (Some a)) as [a'|]; cbn [unwrap_opt rbind]; [|done]. destruct (upgrade h (Some b)) as [b'|]; cbn [unwrap_opt rbind]; [|done]. by destruct (bool_decide (a' = b')).
  Qed.
  Lemma b_add_namespaces_eq i : nomut g -> b_add_namespaces i g h = (h, add_namespaces h i).
  Proof.
    intros Hg. unfold b_add_namespaces, add_namespaces, b_bind, bind. rewrite b_owner_document_eq by done. destruct (owner_document h i) as [[d|]| | |]; cbn [rbind]; try done.
    unfold get_node. destruct (h_nodes h !! d) as [nd|] eqn:Hd; cbn [rbind]; [by erewrite borrow_ok|by rewrite borrow_none].
  Qed.
  Lemma b_get_attribute_node_eq E i name : (i, true) ∉ g -> b_get_attribute_node E i name g h = (h, get_attribute_node E h i name).
  Proof.
    intros Hg. unfold b_get_attribute_node, get_attribute_node, b_bind, bind. rewrite b_is_eq by done. unfold get_node. destruct (h_nodes h !! i) as [n|] eqn:Hn; cbn [rbind]; [|done].
    destruct (is_type NElement n); [|done]. destruct (name_from_str name); try done. by erewrite borrow_ok.
  Qed.
  Lemma b_get_attribute_node_ns_eq E i u l : (i, true) ∉ g -> b_get_attribute_node_ns E i u l g h = (h, get_attribute_node_ns E h i u l).
  Proof.
    intros Hg. unfold b_get_attribute_node_ns, get_attribute_node_ns, b_bind, bind. rewrite b_is_eq by done. unfold get_node. destruct (h_nodes h !! i) as [n|] eqn:Hn; cbn [rbind]; [|done].
    destruct (is_type NElement n); [|done]. destruct (name_new_ns u l); try done. by erewrite borrow_ok.
  Qed.
  Lemma b_as_unwrap_eq t i : (i, true) ∉ g -> b_as_unwrap t i g h = (h, let? n := get_node h i in if is_type t n then Ok tt else Panic PUnwrap).
  Proof. intros Hg. unfold b_as_unwrap, b_bind, bind. rewrite b_is_eq by done. destruct (get_node h i) as [n| | |]; cbn [rbind]; try done. by destruct (is_type t n). Qed.
  Lemma b_resolve_eq i e : nomut g -> b_resolve i e g h = (h, resolve_entity h i e).
  Proof.
    intros Hg. unfold b_resolve, resolve_entity, b_bind, bind. rewrite b_node_type_eq by done. unfold node_type_of. destruct (get_node h i) as [n| | |] eqn:Hn; cbn [rbind]; try done.
    match goal with |- (match ?m with _ => _ end) = (h, rbind ?d _) => assert (Hd : m = (h, d)) end.
    { destruct (n_type n) eqn:Ht; try done.
      all: try (rewrite b_owner_document_eq by done; unfold owner_document; rewrite Hn; cbn [rbind]; destruct (upgrade h (n_owner n)) as [d|]; [|done];
        rewrite b_as_unwrap_eq by done; destruct (get_node h d) as [nd| | |]; cbn [rbind]; try done; destruct (is_type NDocument nd); [|done]; by rewrite b_doc_type_eq).
      rewrite b_as_unwrap_eq by done. rewrite Hn. cbn [rbind]. unfold is_type. rewrite Ht. cbn. by rewrite b_doc_type_eq. }
    rewrite Hd. match goal with |- context [rbind ?d _] => destruct d as [[dt|]| | |] end; cbn [rbind]; try done.
    rewrite b_as_unwrap_eq by done. unfold get_node. destruct (h_nodes h !! dt) as [nt|] eqn:Hnt; cbn [rbind]; [|done].
    destruct (is_type NDocumentType nt); [|done]. unfold b_pure, lift. destruct (unwrap_res (name_from_str e)) as [nm| | |]; cbn [rbind]; try done.
    rewrite (borrow_ok dt nt) by done. unfold b_ret, ret. destruct (n_ext nt) as [| | | ents ? ? ? ?| | |]; try done. destruct (hm_get nm ents) as [x|]; [|done].
    by rewrite b_node_value_eq.
  Qed.
  Lemma b_attr_text_eq l : (forall c, In c l -> (c, true) ∉ g) -> b_attr_text l g h = (h, attr_text h l).
  Proof.
    induction l as [|c l IH]; intros Hg; [done|]. cbn [b_attr_text attr_text]. unfold b_bind, bind. rewrite b_node_type_eq by (apply Hg; by left). unfold node_type_of, get_node.
    destruct (h_nodes h !! c) as [n|] eqn:Hn; cbn [rbind]; [|done]. unfold is_type.
    assert (Hc : (c, true) ∉ g) by (apply Hg; by left).
    destruct (type_eqb (n_type n) NEntityReference); cbn [orb].
    - rewrite b_node_value_eq by done. unfold node_value, get_node. rewrite Hn. cbn [rbind]. rewrite IH by (intros; apply Hg; by right). by destruct (attr_text h l).
    - rewrite b_node_type_eq by done. unfold node_type_of, get_node. rewrite Hn. cbn [rbind]. destruct (type_eqb (n_type n) NText).
      + erewrite borrow_ok by done. unfold b_ret, ret. rewrite IH by (intros; apply Hg; by right). by destruct (attr_text h l).
      + unfold b_ret, ret. rewrite IH by (intros; apply Hg; by right). by destruct (attr_text h l).
  Qed.
End reads.

(** ** Mutators, called with no guard held *)
Ltac dead := first [ by rewrite borrow_none | by rewrite borrow_mut_none ].
Lemma mut_write {A} i (f : node -> node -> node) (k : B A) h : h_nodes h !! i = None -> borrow_mut i (fun n => dob? _ := write i (f n) in k) [] h = (h, Panic PNoHandle).
Proof. intros H. by rewrite borrow_mut_none. Qed.
Lemma b_set_node_value_eq i v h : b_set_node_value i v [] h = modifyM i (set_value v) h.
Proof. unfold b_set_node_value, modifyM. destruct (h_nodes h !! i) as [n|] eqn:Hn; [|dead]. rewrite (borrow_mut_ok i n), write_ok by gd. unfold modifyM. by rewrite Hn. Qed.
Lemma b_append_data_eq i x h : b_append_data i x [] h = append_data i x h.
Proof.
  unfold b_append_data, append_data. destruct (is_nil x); [done|]. unfold modifyM. destruct (h_nodes h !! i) as [n|] eqn:Hn; [|dead].
  rewrite (borrow_mut_ok i n), write_ok by gd. unfold modifyM. by rewrite Hn.
Qed.
Lemma b_replace_data_eq E i o c x h : b_replace_data E i o c x [] h = replace_data E i o c x h.
Proof.
  unfold b_replace_data, replace_data, bind, getM, lift, get_node. destruct (h_nodes h !! i) as [n|] eqn:Hn; [|dead].
  rewrite (borrow_mut_ok i n) by gd. unfold b_bind, bind, b_pure, lift. destruct (replace_value E (n_value n) o c x); try done. by rewrite write_ok by gd.
Qed.
Lemma b_insert_data_eq E i o x h : b_insert_data E i o x [] h = insert_data E i o x h.
Proof. unfold b_insert_data, insert_data. destruct (is_nil x); [done|apply b_replace_data_eq]. Qed.
Lemma b_delete_data_eq E i o c h : b_delete_data E i o c [] h = delete_data E i o c h.
Proof.
  unfold b_delete_data, delete_data, b_bind, bind, b_pure, lift. destruct (usize_add (e_checked E) o c) as [e| | |]; try done. destruct (e =? o)%N; [done|apply b_replace_data_eq].
Qed.
Lemma b_remove_child_eq s o h : b_remove_child s o [] h = remove_child s o h.
Proof.
  unfold b_remove_child, remove_child, b_bind, bind, getM, lift, get_node. destruct (h_nodes h !! s) as [ns|] eqn:Hs; [|dead].
  rewrite (borrow_ok s ns) by gd. unfold b_ret, ret. destruct (position o (n_children ns)) as [k|]; [|done].
  rewrite (borrow_mut_ok s ns), write_ok, (modifyM_eq _ _ _ _ Hs), (modifyM_eq _ _ _ _ Hs) by gd.
  set (h1 := upd s _ h). change (upd s (set_children (delete k (n_children ns)) ns) h) with h1. unfold modifyM.
  destruct (h_nodes h1 !! o) as [no|] eqn:Ho; [|dead]. rewrite (borrow_mut_ok o no), write_ok by gd. unfold modifyM. by rewrite Ho.
Qed.
Lemma b_insert_or_append_eq s c p h : b_insert_or_append s c p [] h = insert_or_append s c p h.
Proof.
  unfold b_insert_or_append, insert_or_append, bind, getM, lift, get_node. destruct (h_nodes h !! s) as [ns|] eqn:Hs; [|dead]. rewrite (borrow_mut_ok s ns) by gd.
  destruct p as [k|].
  - destruct (vec_insert k c (n_children ns)); [|done]. by rewrite write_ok by gd.
  - rewrite write_ok by gd. by rewrite !(modifyM_eq _ _ _ _ Hs).
Qed.
Lemma b_insert_all_eq s l : forall p k h, b_insert_all s l p k [] h = insert_all s l p k h.
Proof.
  induction l as [|c l IH]; intros p k h; [done|]. cbn [b_insert_all insert_all]. rewrite b_bind_eq. apply bind_cong'; [apply b_insert_or_append_eq|]. intros [] h' _. apply IH.
Qed.
Lemma remove_child_static q c h h1 a i n : remove_child q c h = (h1, Ok a) -> h_nodes h !! i = Some n ->
  exists n1, h_nodes h1 !! i = Some n1 /\ n_type n1 = n_type n /\ n_owner n1 = n_owner n.
Proof.
  unfold remove_child, bind, getM, lift, get_node. destruct (h_nodes h !! q) as [nq|] eqn:Hq; [|done]. destruct (position c (n_children nq)) as [k|]; [|done].
  rewrite (modifyM_eq _ _ _ _ Hq). set (h0 := upd q _ h). unfold modifyM. destruct (h_nodes h0 !! c) as [nc|] eqn:Hc; [|done]. unfold ret. intros [= <- _] Hi. cbn [h_nodes].
  assert (Hi0 : exists n0, h_nodes h0 !! i = Some n0 /\ n_type n0 = n_type n /\ n_owner n0 = n_owner n).
  { unfold h0. destruct (decide (q = i)) as [->|Hne]; [rewrite lookup_upd; eexists; split; [done|]; by simplify_eq|rewrite lookup_upd_ne by done; eauto]. }
  destruct Hi0 as (n0 & Hn0 & Ht & Ho). destruct (decide (c = i)) as [->|Hne]; [rewrite lookup_insert; eexists; split; [done|]; by simplify_eq|rewrite lookup_insert_ne by done; eauto].
Qed.
Lemma b_insert_before_eq s c r h : b_insert_before s c r [] h = insert_before s c r h.
Proof.
  unfold b_insert_before, insert_before. unfold bind at 1 2. rewrite !getM_eq. unfold get_node at 1. destruct (h_nodes h !! s) as [ns|] eqn:Hs.
  2:{ unfold b_bind at 1, bind, b_is_child_allowed. by rewrite borrow_none. }
  unfold get_node at 1. destruct (h_nodes h !! c) as [nc|] eqn:Hc.
  2:{ unfold b_bind at 1, bind, b_is_child_allowed. rewrite (borrow_ok s ns) by gd. by rewrite borrow_none. }
  rewrite (b_bind_ok _ _ _ _ _ _ (b_is_child_allowed_eq _ _ _ _ _ _ Hs Hc nomut_nil)). destruct (negb _); [done|].
  rewrite b_bind_eq. apply bind_cong'.
  { rewrite (b_bind_ok _ _ _ _ _ _ (b_is_some [] h NDocument s ns Hs (notin_nil _))). destruct (is_type NDocument ns); cbn [negb andb]; [|done].
    rewrite (b_bind_ok _ _ _ _ _ _ (b_is_some [] h NElement c nc Hc (notin_nil _))). destruct (is_type NElement nc); cbn [negb]; [|done].
    rewrite b_bind_eq. unfold bind. rewrite b_child_nodes_eq by gd. unfold child_nodes. rewrite (get_node_some _ _ _ Hs). cbn [rbind]. by rewrite b_any_element_eq. }
  intros second h0 Hh0. assert (h0 = h) as ->. { destruct (_ && _); [|by injection Hh0 as <- _]. unfold lift in Hh0. by injection Hh0 as <- _. }
  clear Hh0. destruct second; [done|]. rewrite b_bind_eq. apply bind_cong'.
  { destruct r as [r|]; [|done]. rewrite (borrow_ok s ns) by gd. by destruct (position r (n_children ns)). }
  intros pos h0 Hh0. assert (h0 = h) as ->. { destruct r as [r|]; [destruct (position r (n_children ns)); [|done]|]; by injection Hh0 as <- _. }
  clear Hh0. rewrite b_bind_eq. apply bind_cong'; [by rewrite b_check_eq|]. intros [] h0 Hh0. assert (h0 = h) as -> by (unfold lift in Hh0; by injection Hh0 as <- _). clear Hh0.
  rewrite b_bind_eq. apply bind_cong'; [by rewrite b_parent_node_eq by gd|]. intros parent h0 Hh0. assert (h0 = h) as -> by (unfold lift in Hh0; by injection Hh0 as <- _). clear Hh0.
  rewrite b_bind_eq. apply bind_cong'.
  { destruct parent as [q|]; [|done]. rewrite b_bind_eq. apply bind_cong'; [apply b_remove_child_eq|done]. }
  intros [] h1 H1.
  assert (Hst : forall i n, h_nodes h !! i = Some n -> exists n1, h_nodes h1 !! i = Some n1 /\ n_type n1 = n_type n /\ n_owner n1 = n_owner n).
  { intros i n Hi. destruct parent as [q|]; [|injection H1 as <-; eauto]. unfold bind in H1. destruct (remove_child q c h) as [h1' [a| | |]] eqn:Hrm; try done.
    injection H1 as <-. by eapply remove_child_static. }
  destruct (Hst s ns Hs) as (ns1 & Hs1 & Hts & Hos). destruct (Hst c nc Hc) as (nc1 & Hc1 & Htc & Hoc). clear Hst H1.
  rewrite b_bind_eq. unfold bind at 1. rewrite (borrow_ok s ns1) by gd. destruct (decide (s = c)) as [->|Hne].
  { rewrite bool_decide_true by done. rewrite (borrow_mut_held c nc1 false) by gd. done. }
  rewrite bool_decide_false by done. rewrite (borrow_mut_ok c nc1) by (done || gd). unfold b_bind at 1, bind at 1. rewrite write_ok, (modifyM_eq _ _ _ _ Hc1) by gd.
  set (h2 := upd c (set_parent (Some s) nc1) h1). assert (Hs2 : h_nodes h2 !! s = Some ns1) by (unfold h2; by rewrite lookup_upd_ne).
  assert (Hc2 : h_nodes h2 !! c = Some (set_parent (Some s) nc1)) by apply lookup_upd.
  unfold b_bind at 1, bind at 1. rewrite (b_is_some _ _ _ _ _ Hs2) by gd.
  assert (HT : is_type NDocument ns1 = is_type NDocument ns) by (unfold is_type; by rewrite Hts). rewrite HT.
  assert (Hw : (if is_type NDocument ns then write c (set_owner (Some s)) else write c (set_owner (n_owner ns1))) [(c, true); (s, false)] h2 =
    (upd c (set_owner (if is_type NDocument ns then Some s else n_owner ns) (set_parent (Some s) nc1)) h1, Ok tt)).
  { rewrite Hos. destruct (is_type NDocument ns); rewrite write_ok, (modifyM_eq _ _ _ _ Hc2) by gd; unfold h2; by rewrite upd_upd. }
  rewrite Hw. rewrite (bind_modifyM _ _ _ _ _ Hc1). set (h3 := upd c _ h1). clear Hw.
  assert (Hc3 : exists n3, h_nodes h3 !! c = Some n3 /\ n_type n3 = n_type nc). { eexists. split; [apply lookup_upd|done]. }
  destruct Hc3 as (n3 & Hc3 & Ht3). rewrite (b_bind_ok _ _ _ _ _ _ (b_is_some [] h3 NDocumentFragment c n3 Hc3 (notin_nil _))).
  assert (HF : is_type NDocumentFragment n3 = is_type NDocumentFragment nc) by (unfold is_type; by rewrite Ht3). rewrite HF.
  rewrite b_bind_eq. apply bind_cong'; [|done]. destruct (is_type NDocumentFragment nc); [|apply b_insert_or_append_eq].
  rewrite b_bind_eq. apply bind_cong'; [by rewrite b_child_nodes_eq by gd|]. intros l h4 _. apply b_insert_all_eq.
Qed.
Lemma b_append_child_eq s c h : b_append_child s c [] h = append_child s c h.
Proof. apply b_insert_before_eq. Qed.
Lemma b_replace_child_eq s c o h : b_replace_child s c o [] h = replace_child s c o h.
Proof.
  unfold b_replace_child, replace_child. unfold bind at 1 2. rewrite !getM_eq. unfold get_node at 1. destruct (h_nodes h !! s) as [ns|] eqn:Hs.
  2:{ unfold b_bind at 1, bind, b_is_child_allowed. by rewrite borrow_none. }
  unfold get_node at 1. destruct (h_nodes h !! c) as [nc|] eqn:Hc.
  2:{ unfold b_bind at 1, bind, b_is_child_allowed. rewrite (borrow_ok s ns) by gd. by rewrite borrow_none. }
  rewrite (b_bind_ok _ _ _ _ _ _ (b_is_child_allowed_eq _ _ _ _ _ _ Hs Hc nomut_nil)). destruct (negb _); [done|].
  rewrite (b_bind_ok _ _ (bool_decide (o ∈ n_children ns)) _ _ h) by (by rewrite (borrow_ok s ns) by gd). destruct (bool_decide (o ∈ n_children ns)); [|done].
  rewrite b_bind_eq. apply bind_cong'; [by rewrite b_next_sibling_eq|]. intros next h1 _. rewrite b_bind_eq. apply bind_cong'; [apply b_remove_child_eq|]. intros rm h2 _.
  rewrite b_bind_eq. apply bind_cong'; [apply b_insert_before_eq|done].
Qed.
Lemma b_map_eq {A C} (f : A -> B C) (f' : A -> M C) g : (forall x h, f x g h = f' x h) -> forall l h, b_map f l g h = mapM_ f' l h.
Proof.
  intros Hf. induction l as [|x l IH]; intros h; [done|]. cbn [b_map mapM_]. rewrite b_bind_eq. apply bind_cong'; [apply Hf|]. intros y h1 _.
  rewrite b_bind_eq. apply bind_cong'; [apply IH|done].
Qed.
Lemma b_clone_rec_eq deep : forall k i g h, nomut g -> b_clone_rec k deep i g h = clone_rec k deep i h.
Proof.
  induction k as [|k IH]; intros i g h Hg; [done|]. cbn [b_clone_rec clone_rec]. unfold bind at 1. rewrite getM_eq. unfold get_node.
  destruct (h_nodes h !! i) as [n|] eqn:Hn; [|by rewrite borrow_none]. rewrite (borrow_ok i n) by done. rewrite b_bind_eq. apply bind_cong'; [|done].
  destruct deep; [|done]. apply b_map_eq. intros x h1. apply IH. by apply nomut_cons.
Qed.
Lemma b_clone_node_eq deep i h : b_clone_node deep i [] h = clone_node deep i h.
Proof. unfold b_clone_node, clone_node. by apply b_clone_rec_eq. Qed.
Lemma b_err_to_panic_eq {A} p (m : B A) (m' : M A) h : m [] h = m' h -> b_err_to_panic p m [] h = err_to_panic p m' h.
Proof. intros H. unfold b_err_to_panic, err_to_panic. by rewrite H. Qed.
Lemma b_normalize_step_eq s c h : b_normalize_step s c [] h = normalize_step s c h.
Proof.
  unfold b_normalize_step, normalize_step. unfold bind at 1. rewrite getM_eq. unfold get_node at 1. destruct (h_nodes h !! c) as [nc|] eqn:Hc.
  2:{ unfold b_bind, bind, b_is. by rewrite borrow_none. }
  rewrite (b_bind_ok _ _ _ _ _ _ (b_is_some [] h NText c nc Hc (notin_nil _))). destruct (is_type NText nc); [|done].
  rewrite b_bind_eq. apply bind_cong'; [by rewrite b_length_eq by gd|]. intros len h1 H1. assert (h1 = h) as -> by (unfold lift in H1; by injection H1 as <- _). clear H1.
  destruct (len =? 0)%N. { rewrite b_bind_eq. apply bind_cong'; [apply b_err_to_panic_eq, b_remove_child_eq|done]. }
  rewrite b_bind_eq. apply bind_cong'; [by rewrite b_previous_sibling_eq|]. intros prev h1 H1. assert (h1 = h) as -> by (unfold lift in H1; by injection H1 as <- _). clear H1.
  destruct prev as [p|]; [|done]. unfold bind at 1. rewrite getM_eq. unfold get_node at 1. destruct (h_nodes h !! p) as [np|] eqn:Hp.
  2:{ unfold b_bind, bind, b_is. by rewrite borrow_none. }
  rewrite (b_bind_ok _ _ _ _ _ _ (b_is_some [] h NText p np Hp (notin_nil _))). destruct (is_type NText np); [|done].
  rewrite b_bind_eq. unfold bind at 1 2. unfold lift. rewrite b_node_value_eq by gd. unfold node_value. rewrite (get_node_some _ _ _ Hc). cbn [rbind].
  rewrite b_bind_eq. unfold bind at 1, b_pure, lift. destruct (unwrap_opt (n_value nc)) as [v| | |]; try done.
  rewrite b_bind_eq. apply bind_cong'; [apply b_err_to_panic_eq, b_append_data_eq|]. intros [] h2 _. rewrite b_bind_eq. apply bind_cong'; [apply b_err_to_panic_eq, b_remove_child_eq|done].
Qed.
Lemma b_iter_eq {A} (f : A -> B unit) (f' : A -> M unit) : (forall x h, f x [] h = f' x h) -> forall l h, b_iter f l [] h = iterM f' l h.
Proof. intros Hf. induction l as [|x l IH]; intros h; [done|]. cbn [b_iter iterM]. rewrite b_bind_eq. apply bind_cong'; [apply Hf|]. intros [] h1 _. apply IH. Qed.
Lemma b_normalize_eq s h : b_normalize s [] h = normalize s h.
Proof.
  unfold b_normalize, normalize. unfold b_bind, bind. rewrite b_child_nodes_eq by gd. rewrite getM_eq. unfold child_nodes. destruct (get_node h s) as [n| | |]; cbn [rbind]; try done.
  apply b_iter_eq. intros. apply b_normalize_step_eq.
Qed.
Lemma b_split_eq E s o h : b_split E s o [] h = DomOps.split E s o h.
Proof.
  unfold b_split, DomOps.split. unfold bind at 1. rewrite getM_eq. unfold get_node at 1. destruct (h_nodes h !! s) as [n|] eqn:Hs.
  2:{ unfold b_bind, bind. by rewrite borrow_none. }
  rewrite (b_bind_ok _ _ (is_character_data n) _ _ h) by (by rewrite (borrow_ok s n) by gd). destruct (negb _); [done|].
  rewrite b_bind_eq. apply bind_cong'; [by rewrite b_length_eq by gd|]. intros len h1 _. rewrite b_bind_eq. apply bind_cong'.
  { destruct (len <=? o)%N; [done|]. rewrite b_bind_eq. apply bind_cong'; [by rewrite b_substring_eq by gd|]. intros x h2 _. rewrite b_bind_eq. apply bind_cong'; [apply b_delete_data_eq|done]. }
  intros x h2 _. rewrite b_bind_eq. unfold bind at 2. rewrite getM_eq. unfold get_node at 1. destruct (h_nodes h2 !! s) as [n2|] eqn:Hs2.
  2:{ unfold bind. by rewrite borrow_mut_none. }
  apply bind_cong'.
  { rewrite (borrow_mut_ok s n2) by gd. destruct (n_type n2); try done; rewrite b_bind_eq; by apply bind_cong'. }
  intros y h3 _. rewrite b_bind_eq. apply bind_cong'; [done|]. intros z h4 _. rewrite b_bind_eq. apply bind_cong'; [by rewrite b_parent_node_eq by gd|]. intros parent h5 _.
  destruct parent as [p|]; [|done]. rewrite b_bind_eq. apply bind_cong'; [by rewrite b_next_sibling_eq|]. intros next h6 _. rewrite b_bind_eq. apply bind_cong'; [apply b_insert_before_eq|done].
Qed.
Lemma b_attr_unset_value_eq i h : b_attr_unset_value i [] h = attr_unset_value i h.
Proof. unfold b_attr_unset_value, attr_unset_value, modifyM. destruct (h_nodes h !! i) as [n|] eqn:Hn; [|dead]. rewrite (borrow_mut_ok i n), write_ok by gd. unfold modifyM. by rewrite Hn. Qed.
Lemma b_attr_set_value_eq i v h : b_attr_set_value i v [] h = attr_set_value i v h.
Proof.
  unfold b_attr_set_value, attr_set_value. rewrite b_bind_eq. apply bind_cong'; [apply b_attr_unset_value_eq|]. intros [] h1 _.
  rewrite b_bind_eq. unfold bind at 1 2, lift. rewrite b_owner_document_eq by gd. destruct (owner_document h1 i) as [o| | |]; cbn [rbind]; try done.
  rewrite b_bind_eq. unfold bind at 1, b_pure, lift. destruct (unwrap_opt o) as [d| | |]; try done.
  rewrite b_bind_eq. unfold bind at 1 2. rewrite b_as_unwrap_eq by gd. rewrite getM_eq. destruct (get_node h1 d) as [nd| | |] eqn:Hd; cbn [rbind]; try done.
  destruct (is_type NDocument nd); cbn [negb]; [|done]. rewrite b_bind_eq. apply bind_cong'.
  { unfold b_free, create_text_node, with_handle, bind. by rewrite getM_eq, Hd. }
  intros t h2 _. rewrite b_bind_eq. apply bind_cong'; [apply b_append_child_eq|done].
Qed.
Lemma b_insert_mapping_eq i p u h : b_insert_mapping i p u [] h = insert_mapping i p u h.
Proof.
  unfold b_insert_mapping, insert_mapping. rewrite b_bind_eq. apply bind_cong'; [by rewrite b_add_namespaces_eq|]. intros b h1 _. destruct (negb b); [done|].
  unfold bind. rewrite getM_eq. unfold get_node. destruct (h_nodes h1 !! i) as [n|] eqn:Hn; [|dead]. rewrite (borrow_mut_ok i n) by gd.
  destruct (is_type NElement n); [|done]. destruct (n_ext n); try done. by rewrite write_ok by gd.
Qed.
Lemma b_remove_attribute_node_eq s o h : b_remove_attribute_node s o [] h = remove_attribute_node s o h.
Proof.
  unfold b_remove_attribute_node, remove_attribute_node. unfold bind at 1. rewrite getM_eq. unfold get_node at 1. destruct (h_nodes h !! s) as [ns|] eqn:Hs.
  2:{ unfold b_bind, bind, b_is. by rewrite borrow_none. }
  rewrite (b_bind_ok _ _ _ _ _ _ (b_is_some [] h NElement s ns Hs (notin_nil _))). destruct (is_type NElement ns); [|done].
  rewrite (borrow_mut_ok s ns) by gd. destruct (n_ext ns) as [| | | |attrs nss| |]; try done. destruct (decide (o = s)) as [->|Hne].
  { rewrite bool_decide_true by done. unfold b_bind at 1, bind. unfold b_node_name. by rewrite (borrow_held s ns) by gd. }
  rewrite bool_decide_false by done. rewrite b_bind_eq. unfold bind at 1 2. rewrite getM_eq. rewrite b_node_name_eq by gd. unfold node_name. unfold get_node. destruct (h_nodes h !! o) as [no|] eqn:Ho; cbn [rbind]; [|done].
  rewrite b_bind_eq. apply bind_cong'; [by rewrite write_ok by gd|]. intros [] h1 _. unfold bind, modifyM. destruct (h_nodes h1 !! o) as [no1|] eqn:Ho1; [|dead].
  rewrite (borrow_mut_ok o no1) by gd. unfold b_bind, bind. rewrite write_ok by gd. unfold modifyM. by rewrite Ho1.
Qed.
Lemma b_remove_attribute_eq E s n h : b_remove_attribute E s n [] h = remove_attribute E s n h.
Proof.
  unfold b_remove_attribute, remove_attribute. rewrite b_bind_eq. apply bind_cong'; [by rewrite b_get_attribute_node_eq by gd|]. intros [a|] h1 _; [|done].
  rewrite b_bind_eq. apply bind_cong'; [apply b_remove_attribute_node_eq|done].
Qed.
Lemma b_remove_attribute_ns_eq E s u l h : b_remove_attribute_ns E s u l [] h = remove_attribute_ns E s u l h.
Proof.
  unfold b_remove_attribute_ns, remove_attribute_ns. rewrite b_bind_eq. apply bind_cong'; [by rewrite b_get_attribute_node_ns_eq by gd|]. intros [a|] h1 _; [|done].
  rewrite b_bind_eq. apply bind_cong'; [apply b_remove_attribute_node_eq|done].
Qed.
Lemma b_set_xml_declaration_eq i x h : b_set_xml_declaration i x [] h = set_xml_declaration i x h.
Proof.
  unfold b_set_xml_declaration, set_xml_declaration, bind. rewrite getM_eq. unfold get_node. destruct (h_nodes h !! i) as [n|] eqn:Hn; [|dead]. rewrite (borrow_mut_ok i n) by gd.
  destruct (n_ext n); try done. by rewrite write_ok by gd.
Qed.
Lemma create_element_keeps d n h h1 e i x : create_element d n h = (h1, Ok e) -> (i < h_next h)%nat -> h_nodes h !! i = Some x -> h_nodes h1 !! i = Some x.
Proof.
  unfold create_element, with_handle, bind, lift. rewrite getM_eq. destruct (get_node h d); try done. destruct (name_from_str n); try done. intros [= <- _] Hlt Hi. cbn.
  by rewrite lookup_insert_ne by lia.
Qed.
Lemma create_element_ns_keeps d u n h h1 e i x : create_element_ns d u n h = (h1, Ok e) -> (i < h_next h)%nat -> h_nodes h !! i = Some x -> h_nodes h1 !! i = Some x.
Proof.
  unfold create_element_ns, with_handle, bind, lift. rewrite getM_eq. destruct (get_node h d); try done. destruct (name_new_ns u n); try done. intros [= <- _] Hlt Hi. cbn.
  by rewrite lookup_insert_ne by lia.
Qed.
Lemma b_create_document_eq u q t o h : b_create_document_with_options u q t o [] h = create_document_with_options u q t o h.
Proof.
  unfold b_create_document_with_options, create_document_with_options. rewrite b_bind_eq. apply bind_cong'; [done|]. intros [] h1 _.
  rewrite b_bind_eq. unfold b_free at 1. rewrite !bind_allocM. set (d := h_next h1). set (h2 := allocd _ h1).
  assert (Hd : h_nodes h2 !! d = Some (new_document t o)) by (cbn; by rewrite lookup_insert).
  rewrite (b_bind_ok _ _ _ _ _ _ (b_is_some [] h2 NDocument d _ Hd (notin_nil _))). cbn [is_type type_eqb negb].
  change (is_type NDocument (new_document t o)) with true. cbn [negb]. rewrite b_bind_eq. apply bind_cong'.
  { destruct u as [u|], q as [q|]; try done. }
  intros e h3 H3. rewrite b_bind_eq. apply bind_cong'; [|done]. destruct e as [e|]; [|done].
  assert (Hd3 : h_nodes h3 !! d = Some (new_document t o)).
  { destruct u as [u|], q as [q|]; try done; unfold bind in H3.
    - destruct (create_element_ns d u q h2) as [h3' [x| | |]] eqn:Hc; try done. injection H3 as <- _. eapply create_element_ns_keeps; [exact Hc|cbn; unfold d; lia|done].
    - destruct (create_element d q h2) as [h3' [x| | |]] eqn:Hc; try done. injection H3 as <- _. eapply create_element_keeps; [exact Hc|cbn; unfold d; lia|done]. }
  rewrite (b_bind_ok _ _ _ _ _ _ (b_is_some [] h3 NDocument d _ Hd3 (notin_nil _))). change (is_type NDocument (new_document t o)) with true. cbn [negb].
  rewrite b_bind_eq. apply bind_cong'; [apply b_append_child_eq|done].
Qed.

(** ** Up to the reason for a panic *)
Definition ragree {A} (a b : res A) : Prop := a = b \/ (exists p, a = Panic p) /\ exists p, b = Panic p.
Lemma agree_refl {A} (a : heap * res A) : agree a a. Proof. by left. Qed.
Lemma agree_eq {A} (a b : heap * res A) : a = b -> agree a b. Proof. by left. Qed.
Lemma agree_panic {A} h1 p1 h2 p2 : agree (A := A) (h1, Panic p1) (h2, Panic p2). Proof. right. by split; eexists _, _. Qed.
Lemma agree_bind {A C} (m1 m2 : M A) (k1 k2 : A -> M C) h : agree (m1 h) (m2 h) -> (forall a h', m2 h = (h', Ok a) -> agree (k1 a h') (k2 a h')) ->
  agree (bind m1 k1 h) (bind m2 k2 h).
Proof.
  intros [H|[(h1 & p1 & H1) (h2 & p2 & H2)]] Hk; unfold bind.
  - rewrite H. destruct (m2 h) as [h' [a|e|p|]]; [by apply Hk|by left..].
  - rewrite H1, H2. apply agree_panic.
Qed.
Lemma agree_bind_l {A C} (m1 m2 : M A) (k1 k2 : A -> M C) h : m1 h = m2 h -> (forall a h', m2 h = (h', Ok a) -> agree (k1 a h') (k2 a h')) ->
  agree (bind m1 k1 h) (bind m2 k2 h).
Proof. intros H. apply agree_bind. by left. Qed.

Section text.
  Context (E : env).
  Lemma ragree_bind {A C} (m1 m2 : res A) (k1 k2 : A -> res C) : ragree m1 m2 -> (forall a, ragree (k1 a) (k2 a)) -> ragree (rbind m1 k1) (rbind m2 k2).
  Proof.
    intros [->|[[p ->] [q ->]]] Hk; [|right; cbn; split; eauto]. destruct m2; cbn; [apply Hk|by left..].
  Qed.
  Lemma entity_mark s m n : find_token E s = Some (TEntity m, n) -> exists p t, m = p :: t /\ (p = 38%N \/ p = 37%N).
  Proof.
    unfold find_token. destruct (match_entity E s) as [[m' n']|] eqn:H.
    2:{ destruct (match_char E s) as [[? ?]|]; [done|]. destruct (match_hex s) as [[? ?]|]; [done|]. destruct s as [|c s]; [done|]. by destruct (_ || _). }
    intros [= <- <-]. unfold match_entity in H. destruct s as [|c [|d t]]; try done. destruct (((c =? C_AMP)%N || (c =? 37)%N) && is_entity_start E d) eqn:Hb; [|done].
    destruct (span (is_entity_char E) t) as [w [|e r]]; [done|]. destruct (e =? C_SEMI)%N; [|done]. injection H as <- <-. eexists _, _. split; [done|].
    apply andb_true_iff in Hb as [Hb _]. apply orb_true_iff in Hb as [Hb|Hb]; apply N.eqb_eq in Hb; unfold C_AMP in *; auto.
  Qed.
  Lemma scan_agree (f1 f2 : token -> res str) : (forall s tok n, find_token E s = Some (tok, n) -> ragree (f1 tok) (f2 tok)) ->
    forall s k, ragree (scan E f1 s k) (scan E f2 s k).
  Proof.
    intros Hf. induction s as [|c s IH]; intros k; [by left|]. cbn [scan]. destruct k as [|k]; [|apply IH].
    destruct (find_token E (c :: s)) as [[tok n]|] eqn:Ht.
    - apply ragree_bind; [by eapply Hf|]. intros r. apply ragree_bind; [apply IH|]. intros. by left.
    - apply ragree_bind; [apply IH|]. intros. by left.
  Qed.
  Definition blind (r : str -> res (option str)) : Prop := forall p t, p = 38%N \/ p = 37%N -> r (p :: t) = Ok None \/ exists q, r (p :: t) = Panic q.
  Lemma normalize_agree r1 r2 k cd v : blind r1 -> blind r2 -> ragree (normalize_attribute_value (S k) E r1 cd v) (normalize_attribute_value (S k) E r2 cd v).
  Proof.
    intros H1 H2. cbn [normalize_attribute_value]. apply ragree_bind; [|intros; by left]. apply scan_agree. intros s tok n Ht. destruct tok as [m|m|m|]; [|by left..].
    apply entity_mark in Ht as (p & t & -> & Hp). destruct (H1 p t Hp) as [->|[q ->]], (H2 p t Hp) as [->|[q' ->]]; right; cbn; (split; eauto).
  Qed.
End text.

Lemma borrow_or {A} i (k : node -> B A) g h : (exists p, borrow i k g h = (h, Panic p)) \/ exists n, h_nodes h !! i = Some n /\ borrow i k g h = k n ((i, false) :: g) h.
Proof. unfold borrow. destruct (h_nodes h !! i) as [n|]; [|by left; eexists]. destruct (bool_decide _); [by left; eexists|right; eauto]. Qed.
Ltac bor n H := match goal with |- context [borrow ?i ?k ?g ?h] => let Hb := fresh "Hb" in let q := fresh "q" in destruct (borrow_or i k g h) as [[q Hb]|(n & H & Hb)]; rewrite Hb; clear Hb end.
(** a read ends in a value or a panic and leaves the heap alone *)
Definition calm {A} (h : heap) (x : heap * res A) : Prop := (exists q, x = (h, Panic q)) \/ exists o, x = (h, Ok o).
Lemma calm_panic {A} h q : calm (A := A) h (h, Panic q). Proof. left. by eexists. Qed.
Lemma calm_ok {A} h (a : A) : calm h (h, Ok a). Proof. right. by eexists. Qed.
Lemma calm_bind {A C} (m : B A) (k : A -> B C) g h : calm h (m g h) -> (forall a, calm h (k a g h)) -> calm h (b_bind m k g h).
Proof. intros [[q H]|[a H]] Hk; unfold b_bind, bind; rewrite H; [apply calm_panic|apply Hk]. Qed.
Lemma calm_borrow {A} i (k : node -> B A) g h : (forall n, calm h (k n ((i, false) :: g) h)) -> calm h (borrow i k g h).
Proof. intros Hk. bor n Hn; [apply calm_panic|apply Hk]. Qed.
Lemma calm_is t i g h : calm h (b_is t i g h). Proof. apply calm_borrow. intros. apply calm_ok. Qed.
Lemma calm_as_unwrap t i g h : calm h (b_as_unwrap t i g h).
Proof. apply calm_bind; [apply calm_is|]. intros []; [apply calm_ok|apply calm_panic]. Qed.
Lemma calm_node_type i g h : calm h (b_node_type i g h). Proof. apply calm_borrow. intros. apply calm_ok. Qed.
Lemma calm_owner_document i g h : calm h (b_owner_document i g h). Proof. apply calm_borrow. intros. apply calm_ok. Qed.
Lemma calm_doc_type i g h : calm h (b_doc_type i g h).
Proof. apply calm_borrow. intros n. destruct (n_ext n); (apply calm_ok || apply calm_panic). Qed.
Lemma b_resolve_blind i g h : blind (fun e => (b_resolve i e g h).2).
Proof.
  intros p t Hp. pose proof (name_from_str_ref p t Hp) as Hn. cbn beta.
  enough (H : (exists q, b_resolve i (p :: t) g h = (h, Panic q)) \/ b_resolve i (p :: t) g h = (h, Ok None)) by (destruct H as [[q ->]| ->]; cbn; eauto).
  unfold b_resolve. rewrite b_bind_eq. unfold bind. destruct (calm_node_type i g h) as [[q ->]|[y ->]]; [by left; eexists|].
  rewrite b_bind_eq. unfold bind. match goal with |- context [match ?m with (_, _) => _ end] => assert (Hd : calm h m) end.
  { destruct y; try (apply calm_bind; [apply calm_owner_document|intros [d|]; [|apply calm_ok]; apply calm_bind; [apply calm_as_unwrap|intros; apply calm_doc_type]]).
    - apply calm_bind; [apply calm_as_unwrap|intros; apply calm_doc_type].
    - apply calm_ok. }
  destruct Hd as [[q ->]|[[d|] ->]]; [by left; eexists| |by right].
  rewrite b_bind_eq. unfold bind. destruct (calm_as_unwrap NDocumentType d g h) as [[q ->]|[[] ->]]; [by left; eexists|].
  rewrite b_bind_eq. unfold bind, b_pure, lift. pose proof (name_from_str_spec (p :: t)) as Hs.
  destruct (name_from_str (p :: t)) as [| |q|]; [done|by left; eexists..|]. by destruct Hs as [(? & ? & _)|[[? _]|[[? _]|[? _]]]].
Qed.

Lemma b_attr_value_agree E i g h n : h_nodes h !! i = Some n -> (i, true) ∉ g -> (forall c, In c (n_children n) -> (c, true) ∉ g) ->
  exists r, b_attr_value E i g h = (h, r) /\ ragree r (attr_value E h i).
Proof.
  intros Hn Hi Hc. unfold b_attr_value, attr_value. rewrite (get_node_some _ _ _ Hn). cbn [rbind]. unfold b_bind at 1, bind, b_has_child_nodes. unfold b_bind at 1, bind.
  rewrite b_child_nodes_eq by done. unfold child_nodes. rewrite (get_node_some _ _ _ Hn). cbn [rbind]. unfold b_ret at 1, ret at 1.
  destruct (is_nil (n_children n)); cbn [negb]; [eexists; by split; [|left]|]. unfold b_bind at 1, bind. rewrite b_child_nodes_eq by done. unfold child_nodes. rewrite (get_node_some _ _ _ Hn). cbn [rbind].
  unfold b_bind at 1, bind. rewrite b_attr_text_eq by done. destruct (attr_text h (n_children n)) as [raw| | |]; cbn [rbind]; try (eexists; by split; [|left]).
  unfold b_bind, bind, lift. eassert (Hr : ragree (normalize_attribute_value entity_fuel E (fun e => (b_resolve i e g h).2) false raw) (normalize_attribute_value entity_fuel E (resolve_entity h i) false raw)).
  { apply normalize_agree; [apply b_resolve_blind|]. intros p t Hp. by apply resolve_never_some. }
  destruct Hr as [->|[[p ->] [q ->]]]; [|eexists; split; [done|]; right; cbn; split; eauto].
  destruct (normalize_attribute_value entity_fuel E (resolve_entity h i) false raw); cbn [rbind]; eexists; by split; [|left].
Qed.
Lemma insert_mapping_keeps i p u h h1 x j : insert_mapping i p u h = (h1, Ok x) -> j <> i -> h_nodes h1 !! j = h_nodes h !! j.
Proof.
  unfold insert_mapping, bind, lift. destruct (add_namespaces h i) as [b| | |]; try done. destruct (negb b); [by intros [= <- _]|]. rewrite getM_eq.
  unfold get_node. destruct (h_nodes h !! i) as [n|] eqn:Hn; [|done]. destruct (is_type NElement n); [|done]. destruct (n_ext n); try done.
  rewrite (modifyM_eq _ _ _ _ Hn). intros [= <- _] Hj. by rewrite lookup_upd_ne.
Qed.
Definition agreeP {A} (P : Prop) (a b : heap * res A) : Prop := a = b \/ P /\ (exists h p, a = (h, Panic p)) /\ exists h p, b = (h, Panic p).
Lemma agreeP_bind_l {A C} P (m1 m2 : M A) (k1 k2 : A -> M C) h : m1 h = m2 h -> (forall a h', m2 h = (h', Ok a) -> agreeP P (k1 a h') (k2 a h')) ->
  agreeP P (bind m1 k1 h) (bind m2 k2 h).
Proof. intros H Hk. unfold bind. rewrite H. destruct (m2 h) as [h' [a|e|p|]]; [by apply Hk|by left..]. Qed.
Lemma b_attr_value_exact E i h n : h_nodes h !! i = Some n -> b_attr_value E i [] h = (h, attr_value E h i).
Proof.
  intros Hn. unfold b_attr_value, attr_value. rewrite (get_node_some _ _ _ Hn). cbn [rbind]. unfold b_bind at 1, bind, b_has_child_nodes. unfold b_bind at 1, bind.
  rewrite b_child_nodes_eq by gd. unfold child_nodes. rewrite (get_node_some _ _ _ Hn). cbn [rbind]. unfold b_ret at 1, ret at 1.
  destruct (is_nil (n_children n)); cbn [negb]; [done|]. unfold b_bind at 1, bind. rewrite b_child_nodes_eq by gd. unfold child_nodes. rewrite (get_node_some _ _ _ Hn). cbn [rbind].
  unfold b_bind at 1, bind. rewrite b_attr_text_eq by (intros; gd). destruct (attr_text h (n_children n)) as [raw| | |]; cbn [rbind]; try done.
  unfold b_bind, bind, lift. rewrite (normalize_ext E (fun e => (b_resolve i e [] h).2) (resolve_entity h i)).
  2:{ intros e. by rewrite b_resolve_eq by apply nomut_nil. }
  by destruct (normalize_attribute_value entity_fuel E (resolve_entity h i) false raw).
Qed.
(** The attribute counts as an id in the document it belongs to. *)
Definition id_at (h : heap) (na : node) : Prop := exists d nd, n_owner na = Some d /\ h_nodes h !! d = Some nd /\
  is_id_attribute (n_name na) match n_ext nd with XDocument _ _ _ o => has_assume_ids o | _ => false end = true.
Lemma b_set_attribute_node_cases E s a h na : h_nodes h !! a = Some na ->
  (n_type na = NAttribute -> forall c, In c (n_children na) -> c <> s /\
     forall nc x t m o, h_nodes h !! c = Some nc -> n_ext nc = XDocument x t m o -> n_owner na <> Some c) ->
  agreeP (id_at h na) (b_set_attribute_node E s a [] h) (set_attribute_node E s a h).
Proof.
  intros Ha Hk. unfold b_set_attribute_node, set_attribute_node. unfold bind at 1. rewrite getM_eq. unfold get_node at 1. destruct (h_nodes h !! s) as [ns|] eqn:Hs.
  2:{ left. unfold b_bind at 1, bind. unfold b_bind at 1, bind, b_is. by rewrite borrow_none. }
  unfold bind at 1. rewrite getM_eq, (get_node_some _ _ _ Ha).
  rewrite (b_bind_ok _ _ (is_type NElement ns && is_type NAttribute na) _ _ h).
  2:{ rewrite (b_bind_ok _ _ _ _ _ _ (b_is_some [] h NElement s ns Hs (notin_nil _))). destruct (is_type NElement ns); cbn [andb]; [|done]. by rewrite (b_is_some [] h NAttribute a na Ha) by gd. }
  destruct (is_type NElement ns) eqn:Hte; cbn [andb negb]; [|by left]. destruct (is_type NAttribute na) eqn:Hta; cbn [negb]; [|by left].
  apply is_type_true in Hte, Hta. specialize (Hk Hta). assert (Hne : a <> s) by congruence.
  rewrite b_bind_eq. apply agreeP_bind_l; [by rewrite b_check_eq|]. intros [] h0 Hh0. assert (h0 = h) as -> by (unfold lift in Hh0; by injection Hh0 as <- _). clear Hh0.
  rewrite b_bind_eq. apply agreeP_bind_l. { rewrite (borrow_mut_ok a na) by gd. destruct (n_ext na); try done. by rewrite write_ok by gd. }
  intros [] h1 H1. set (na1 := set_ext (XAttribute (Some s)) na).
  assert (Ha1 : h_nodes h1 !! a = Some na1 /\ forall j, j <> a -> h_nodes h1 !! j = h_nodes h !! j).
  { destruct (n_ext na); try done. rewrite (modifyM_eq _ _ _ _ Ha) in H1. injection H1 as <-. rewrite lookup_upd. split; [done|]. intros. by rewrite lookup_upd_ne. }
  destruct Ha1 as [Ha1 K1]. assert (Hs1 : h_nodes h1 !! s = Some ns) by (by rewrite K1). clear H1. unfold b_bind at 1, bind at 1. rewrite b_node_name_eq by gd. unfold node_name. rewrite (get_node_some _ _ _ Ha1). cbn [rbind na1 set_ext n_name]. cbn zeta.
  rewrite b_bind_eq. apply agreeP_bind_l.
  { destruct (is_namespace_attribute (n_name na)); [|done]. unfold b_bind at 1, bind at 1. rewrite b_as_unwrap_eq by gd. rewrite (get_node_some _ _ _ Ha1). cbn [rbind].
    assert (Ht1 : is_type NAttribute na1 = true) by (by apply is_type_true). rewrite Ht1.
    rewrite b_bind_eq. unfold bind at 1 2, lift. rewrite (b_attr_value_exact E a h1 na1 Ha1).
    destruct (attr_value E h1 a) as [v| | |]; cbn [rbind]; try done. rewrite b_bind_eq. unfold bind at 1, b_pure, lift. destruct (unwrap_opt v) as [v'| | |]; try done.
    rewrite b_bind_eq. unfold bind at 1. rewrite b_as_unwrap_eq by gd. rewrite (get_node_some _ _ _ Hs1). cbn [rbind]. rewrite (proj2 (is_type_true NElement ns) Hte). apply b_insert_mapping_eq. }
  intros [] h2 H2. assert (K2 : forall j, j <> s -> h_nodes h2 !! j = h_nodes h1 !! j).
  { destruct (is_namespace_attribute (n_name na)); [|by injection H2 as <-]. unfold bind, lift in H2. destruct (let? v := attr_value E h1 a in unwrap_opt v) as [v| | |]; try done.
    intros j Hj. by rewrite (insert_mapping_keeps _ _ _ _ _ _ j H2). }
  assert (Ha2 : h_nodes h2 !! a = Some na1) by (by rewrite K2). clear H2. unfold bind at 1. rewrite getM_eq. unfold get_node at 1. destruct (h_nodes h2 !! s) as [ns2|] eqn:Hs2; [|left; by rewrite borrow_mut_none].
  rewrite (borrow_mut_ok s ns2) by gd. destruct (n_ext ns2) as [| | | |attrs nss| |]; try by left.
  unfold b_bind at 1, bind at 1. rewrite b_node_name_eq by gd. unfold node_name. rewrite (get_node_some _ _ _ Ha2). cbn [rbind na1 set_ext n_name].
  rewrite b_bind_eq. apply agreeP_bind_l; [by rewrite write_ok by gd|]. intros [] h3 H3. rewrite (modifyM_eq _ _ _ _ Hs2) in H3. injection H3 as <-. set (h3 := upd s _ h2).
  assert (Ha3 : h_nodes h3 !! a = Some na1) by (unfold h3; by rewrite lookup_upd_ne by done).
  unfold b_bind at 1, bind at 1. rewrite b_as_unwrap_eq by gd. rewrite (get_node_some _ _ _ Ha3). cbn [rbind].
  assert (Ht1 : is_type NAttribute na1 = true) by (by apply is_type_true). rewrite Ht1.
  unfold b_bind at 1, bind at 1. rewrite b_owner_document_eq by gd. unfold bind at 1, lift. destruct (owner_document h3 a) as [o| | |] eqn:Ho; cbn [rbind]; try by left.
  unfold b_bind at 1, bind at 1, b_pure at 1, lift at 1. destruct o as [d|]; cbn [unwrap_opt]; [|by left].
  assert (Hod : n_owner na = Some d /\ exists nd, h_nodes h3 !! d = Some nd).
  { unfold owner_document in Ho. rewrite (get_node_some _ _ _ Ha3) in Ho. cbn [rbind na1 set_ext n_owner] in Ho. injection Ho as Ho. by apply upgrade_some in Ho. }
  destruct Hod as [Hod (nd & Hd3)]. destruct (decide (d = s)) as [->|Hds].
  { rewrite bool_decide_true by done. left. by rewrite (borrow_mut_held s nd true) by gd. }
  rewrite bool_decide_false by done. rewrite (borrow_mut_ok d nd) by gd. unfold bind at 1. rewrite getM_eq, (get_node_some _ _ _ Hd3). cbn zeta.
  destruct (is_id_attribute (n_name na) _) eqn:Hid; [|by left]. destruct (n_ext nd) as [| |decl dt m op| | | |] eqn:Hxd; try by left.
  assert (Hda : d <> a). { intros ->. assert (nd = na1) as -> by congruence. done. }
  destruct (b_attr_value_agree E a [(d, true); (s, true)] h3 na1 Ha3) as (r & Hr & Hag); [gd| |].
  { intros c Hc. destruct (Hk c Hc) as [H1 H2]. apply not_elem_of_cons. split; [|gd]. intros [= ->]. eapply H2; [|exact Hxd|done].
    rewrite <- Hd3. unfold h3. rewrite lookup_upd_ne, K2, K1 by done. done. }
  rewrite b_bind_eq. unfold bind at 1 2, lift. rewrite Hr. destruct Hag as [->|[[p ->] [q Hq]]]; [|rewrite Hq; cbn [rbind]; right; split; [exists d, nd; split; [done|]; split; [rewrite <- Hd3; unfold h3; by rewrite lookup_upd_ne, K2, K1 by done|by rewrite Hxd]|split; eexists _, _; done]].
  destruct (attr_value E h3 a) as [v| | |]; cbn [rbind]; try by left. rewrite b_bind_eq. unfold bind at 1, b_pure, lift. destruct (unwrap_opt v) as [v'| | |]; try by left.
  destruct (hm_get v' m); [by left|]. left. rewrite b_bind_eq. apply bind_cong'; [by rewrite write_ok by gd|done].
Qed.

Lemma b_set_attribute_node_agree E s a h na : h_nodes h !! a = Some na ->
  (n_type na = NAttribute -> forall c, In c (n_children na) -> c <> s /\
     forall nc x t m o, h_nodes h !! c = Some nc -> n_ext nc = XDocument x t m o -> n_owner na <> Some c) ->
  agree (b_set_attribute_node E s a [] h) (set_attribute_node E s a h).
Proof. intros Ha Hk. destruct (b_set_attribute_node_cases E s a h na Ha Hk) as [H|[_ H]]; [by left|by right]. Qed.

(** ** A call whose attribute is new *)
Lemma new_attribute_with d nm v h h1 n : new_attribute d nm (Some v) h = (h1, Ok n) ->
  n_children n = [h_next h] /\ n_owner n = Some d /\ h_next h1 = S (h_next h).
Proof. unfold new_attribute, bind, allocM, ret. by intros [= <- <-]. Qed.
Lemma new_attribute_keeps d nm v h h1 n : new_attribute d nm (Some v) h = (h1, Ok n) -> (forall j, (j < h_next h)%nat -> h_nodes h1 !! j = h_nodes h !! j) /\ n_name n = nm.
Proof. unfold new_attribute, bind, allocM, ret. intros [= <- <-]. split; [|done]. intros j Hj. cbn. rewrite lookup_insert_ne by lia. done. Qed.
Lemma b_set_new_attribute_cases E s nm v h : (s < h_next h)%nat -> (forall ns d, h_nodes h !! s = Some ns -> n_owner ns = Some d -> (d < h_next h)%nat) ->
  agreeP (exists d nd, owner_link h s = Some d /\ h_nodes h !! d = Some nd /\ is_id_attribute nm match n_ext nd with XDocument _ _ _ o => has_assume_ids o | _ => false end = true)
    (b_set_new_attribute E s nm v [] h) (set_new_attribute E s nm v h).
Proof.
  intros Hlt Hd. unfold b_set_new_attribute, set_new_attribute. unfold bind at 1. rewrite getM_eq. unfold get_node. destruct (h_nodes h !! s) as [ns|] eqn:Hs.
  2:{ left. unfold b_bind at 1, bind. by rewrite borrow_mut_none. }
  rewrite b_bind_eq. unfold bind at 1 2. rewrite (borrow_mut_ok s ns) by gd. rewrite b_bind_eq. unfold bind at 1. unfold b_pure, lift. destruct (n_owner ns) as [d|] eqn:Ho; cbn [unwrap_opt]; [|by left].
  specialize (Hd _ _ eq_refl Ho). match goal with |- agreeP _ _ ?r => change r with (bind (new_attribute d nm (Some v)) (fun a => do? a := allocM a in do? _ := set_attribute_node E s a in ret tt) h) end.
  match goal with |- agreeP _ ?l _ => change l with (bind (new_attribute d nm (Some v)) (fun a => (dob? a := b_free (allocM a) in dob? _ := b_set_attribute_node E s a in b_ret tt) []) h) end.
  apply agreeP_bind_l; [done|]. intros n h1 Hn. pose proof (new_attribute_keeps _ _ _ _ _ _ Hn) as [K Hnm].
  apply new_attribute_with in Hn as (Hc & Hno & Hx). rewrite b_bind_eq. unfold b_free. rewrite !bind_allocM, b_bind_eq.
  destruct (b_set_attribute_node_cases E s (h_next h1) (allocd n h1) n) as [Heq|[(d0 & nd & Hd0 & Hnd & Hid) Hp]].
  - cbn. by rewrite lookup_insert.
  - intros _ c. rewrite Hc, Hno. intros [<-|[]]. split; [lia|]. intros. intros [= ->]. lia.
  - left. by apply bind_cong'.
  - right. split; [|destruct Hp as [(h2 & p & Hp2) (h3 & q & Hp3)]; unfold bind, b_ret; rewrite Hp2, Hp3; split; by eexists _, _].
    exists d0, nd. rewrite Hno in Hd0. injection Hd0 as <-. split; [unfold owner_link; by rewrite Hs, Ho|]. rewrite <- Hnm. split; [|done].
    rewrite <- Hnd. cbn. rewrite lookup_insert_ne by lia. symmetry. apply K. lia.
Qed.
Lemma b_set_new_attribute_agree E s nm v h : (s < h_next h)%nat -> (forall ns d, h_nodes h !! s = Some ns -> n_owner ns = Some d -> (d < h_next h)%nat) ->
  agree (b_set_new_attribute E s nm v [] h) (set_new_attribute E s nm v h).
Proof. intros H1 H2. destruct (b_set_new_attribute_cases E s nm v h H1 H2) as [H|[_ H]]; [by left|by right]. Qed.
Lemma b_set_attribute_agree E s nm v h : (s < h_next h)%nat -> (forall ns d, h_nodes h !! s = Some ns -> n_owner ns = Some d -> (d < h_next h)%nat) ->
  agree (b_set_attribute E s nm v [] h) (set_attribute E s nm v h).
Proof. intros Hlt Hd. unfold b_set_attribute, set_attribute. rewrite b_bind_eq. apply agree_bind_l; [done|]. intros k h' [= <- _]. by apply b_set_new_attribute_agree. Qed.
Lemma b_set_attribute_ns_agree E s u q v h : (s < h_next h)%nat -> (forall ns d, h_nodes h !! s = Some ns -> n_owner ns = Some d -> (d < h_next h)%nat) ->
  agree (b_set_attribute_ns E s u q v [] h) (set_attribute_ns E s u q v h).
Proof. intros Hlt Hd. unfold b_set_attribute_ns, set_attribute_ns. rewrite b_bind_eq. apply agree_bind_l; [done|]. intros k h' [= <- _]. by apply b_set_new_attribute_agree. Qed.

(** ** The parser *)
Definition pagree {A} (a b : heap * pres A) : Prop := a = b \/ (exists h p, a = (h, PPanic p)) /\ exists h p, b = (h, PPanic p).
Lemma pagree_panic {A} h1 p1 h2 p2 : pagree (A := A) (h1, PPanic p1) (h2, PPanic p2). Proof. right. by split; eexists _, _. Qed.
Lemma pagree_bind {A C} (m1 m2 : PM A) (k1 k2 : A -> PM C) h : pagree (m1 h) (m2 h) -> (forall a h', m2 h = (h', POk a) -> pagree (k1 a h') (k2 a h')) ->
  pagree (pbind m1 k1 h) (pbind m2 k2 h).
Proof.
  intros [H|[(h1 & p1 & H1) (h2 & p2 & H2)]] Hk; unfold pbind.
  - rewrite H. destruct (m2 h) as [h' [a|e|p|]]; [by apply Hk|by left..].
  - rewrite H1, H2. apply pagree_panic.
Qed.
Lemma pagree_dom {A} (m1 m2 : M A) h : agree (m1 h) (m2 h) -> pagree (pdom m1 h) (pdom m2 h).
Proof. unfold pdom. intros [->|[(h1 & p1 & ->) (h2 & p2 & ->)]]; [by left|apply pagree_panic]. Qed.

(** The counter of nodes never goes down. *)
Definition mono {A} (m : M A) : Prop := forall h h' r, m h = (h', r) -> (h_next h <= h_next h')%nat.
Lemma mono_bind {A C} (m : M A) (k : A -> M C) : mono m -> (forall a, mono (k a)) -> mono (bind m k).
Proof.
  intros Hm Hk h h' r. unfold bind. destruct (m h) as [h1 [a|e|p|]] eqn:H1; pose proof (Hm _ _ _ H1); [|by intros [= <- _]..].
  intros H2. pose proof (Hk _ _ _ _ H2). lia.
Qed.
Lemma mono_lift {A} (f : heap -> res A) : mono (lift f). Proof. by intros h h' r [= <- _]. Qed.
Lemma mono_ret {A} (a : A) : mono (ret a). Proof. by intros h h' r [= <- _]. Qed.
Lemma mono_fail {A} e : mono (A := A) (fail e). Proof. by intros h h' r [= <- _]. Qed.
Lemma mono_panic {A} p : mono (A := A) (panic_ p). Proof. by intros h h' r [= <- _]. Qed.
Lemma mono_getM i : mono (getM i). Proof. intros h h' r. rewrite getM_eq. by intros [= <- _]. Qed.
Lemma mono_modifyM i f : mono (modifyM i f).
Proof. intros h h' r. unfold modifyM. destruct (h_nodes h !! i); by intros [= <- _]. Qed.
Lemma mono_allocM n : mono (allocM n). Proof. intros h h' r [= <- _]. cbn. lia. Qed.
Create HintDb mono.
#[local] Hint Resolve mono_lift mono_ret mono_fail mono_panic mono_getM mono_modifyM mono_allocM : mono.
Ltac mn := repeat first [ apply mono_bind; [|intros ?] | solve [auto with mono] | progress cbv zeta
  | match goal with |- mono (match ?x with _ => _ end) => destruct x end | match goal with |- mono (if ?x then _ else _) => destruct x end ].
Lemma mono_remove_child s o : mono (remove_child s o). Proof. unfold remove_child. mn. Qed.
#[local] Hint Resolve mono_remove_child : mono.
Lemma mono_insert_or_append s c p : mono (insert_or_append s c p). Proof. unfold insert_or_append. mn. Qed.
#[local] Hint Resolve mono_insert_or_append : mono.
Lemma mono_insert_all s l : forall p k, mono (insert_all s l p k). Proof. induction l; intros; cbn [insert_all]; mn. Qed.
#[local] Hint Resolve mono_insert_all : mono.
Lemma mono_insert_before s c r : mono (insert_before s c r). Proof. unfold insert_before. mn. Qed.
Lemma mono_append_child s c : mono (append_child s c). Proof. apply mono_insert_before. Qed.
Lemma mono_insert_mapping s p u : mono (insert_mapping s p u). Proof. unfold insert_mapping. mn. Qed.
#[local] Hint Resolve mono_append_child mono_insert_mapping : mono.
Lemma mono_set_attribute_node E s a : mono (set_attribute_node E s a). Proof. unfold set_attribute_node. mn. Qed.
#[local] Hint Resolve mono_set_attribute_node : mono.
Definition pmono {A} (m : PM A) : Prop := forall h h' r, m h = (h', r) -> (h_next h <= h_next h')%nat.
Lemma pmono_bind {A C} (m : PM A) (k : A -> PM C) : pmono m -> (forall a, pmono (k a)) -> pmono (pbind m k).
Proof.
  intros Hm Hk h h' r. unfold pbind. destruct (m h) as [h1 [a|e|p|]] eqn:H1; pose proof (Hm _ _ _ H1); [|by intros [= <- _]..].
  intros H2. pose proof (Hk _ _ _ _ H2). lia.
Qed.
Lemma pmono_dom {A} (m : M A) : mono m -> pmono (pdom m).
Proof. intros Hm h h' r. unfold pdom. destruct (m h) as [h1 x] eqn:H1. pose proof (Hm _ _ _ H1). destruct x; by intros [= <- _]. Qed.
Lemma mono_err {A} p (m : M A) : mono m -> mono (err_to_panic p m).
Proof. intros Hm h h' r. unfold err_to_panic. destruct (m h) as [h1 x] eqn:H1. pose proof (Hm _ _ _ H1). destruct x; by intros [= <- _]. Qed.
Lemma pmono_unwrap {A} (m : M A) : mono m -> pmono (pdom_unwrap m). Proof. intros. by apply pmono_dom, mono_err. Qed.
Lemma pmono_ret {A} (a : A) : pmono (pret a). Proof. by intros h h' r [= <- _]. Qed.
Lemma pmono_fail {A} e : pmono (A := A) (pfail e). Proof. by intros h h' r [= <- _]. Qed.
Lemma pmono_decode o : pmono (pdecode o). Proof. destruct o; by intros h h' r [= <- _]. Qed.
Lemma pmono_punwrap {A} (o : option A) : pmono (punwrap o). Proof. destruct o; by intros h h' r [= <- _]. Qed.
Lemma mono_with {A} d (m : M A) : mono m -> mono (with_handle d m).
Proof. intros Hm. unfold with_handle. mn. Qed.
Lemma mono_create d nm v : mono (create_attribute_with d nm v).
Proof. apply mono_with. unfold new_attribute. mn. Qed.
Lemma mono_create_element d nm : mono (create_element d nm). Proof. apply mono_with. mn. Qed.
Lemma mono_create_text d s : mono (create_text_node d s). Proof. apply mono_with. mn. Qed.
Lemma mono_create_cdata d s : mono (create_cdata_section d s). Proof. apply mono_with. mn. Qed.
Lemma mono_create_comment d s : mono (create_comment d s). Proof. apply mono_with. mn. Qed.
Lemma mono_create_pi d t s : mono (create_processing_instruction d t s). Proof. apply mono_with. mn. Qed.
Lemma mono_set_decl d x : mono (set_xml_declaration d x). Proof. unfold set_xml_declaration. mn. Qed.
#[local] Hint Resolve mono_create mono_create_element mono_create_text mono_create_cdata mono_create_comment mono_create_pi mono_set_decl : mono.
Ltac pmn := repeat first [ apply pmono_bind; [|intros ?] | apply pmono_dom; solve [mn] | apply pmono_unwrap; solve [mn] | apply pmono_decode | apply pmono_punwrap | apply pmono_ret | apply pmono_fail ].
Lemma pmono_attributes E doc el l : pmono (handle_attributes E doc el l).
Proof. induction l as [|[n v| |] l IH]; cbn [handle_attributes]; [pmn| |by intros h h' r [= <- _]|pmn]. pmn. exact IH. Qed.
Lemma pmono_start E doc p n l : pmono (handle_start E doc p n l). Proof. unfold handle_start. pmn. apply pmono_attributes. Qed.
Lemma pmono_comment doc p t : pmono (handle_comment doc p t). Proof. unfold handle_comment. pmn. Qed.
Lemma pmono_text doc p t : pmono (handle_text doc p t). Proof. unfold handle_text. pmn. Qed.
Lemma pmono_cdata doc p t : pmono (handle_cdata doc p t). Proof. unfold handle_cdata. pmn. Qed.
Lemma pmono_pi doc p t : pmono (handle_pi doc p t). Proof. unfold handle_pi. pmn. destruct (pi_parts a). pmn. Qed.
Lemma pmono_make v e s : pmono (make_decl v e s).
Proof.
  unfold make_decl. pmn; [|destruct e; pmn|destruct s; pmn]. intros h h' r. destruct (unquote a); by intros [= <- _].
Qed.
Lemma pmono_decl doc v e s : pmono (handle_decl doc v e s).
Proof. unfold handle_decl. apply pmono_bind; [pmn|]. intros [?|]; [pmn|]. apply pmono_bind; [apply pmono_make|]. intros. pmn. Qed.

Lemma create_attribute_with_ok d nm v h h1 a : create_attribute_with d nm v h = (h1, Ok a) ->
  exists na, h_nodes h1 !! a = Some na /\ n_children na = [h_next h] /\ n_owner na = Some d.
Proof.
  unfold create_attribute_with, with_handle. unfold bind at 1. rewrite getM_eq. destruct (get_node h d); try done. unfold bind at 1, lift. destruct (name_from_str nm) as [k| | |]; try done.
  unfold new_attribute, bind, allocM, ret. cbn. intros [= <- <-]. eexists. cbn. rewrite lookup_insert. done.
Qed.
Lemma create_element_ok d nm h h1 e : pdom_unwrap (create_element d nm) h = (h1, POk e) -> e = h_next h /\ h_next h1 = S (h_next h).
Proof.
  unfold pdom_unwrap, pdom, err_to_panic, create_element, with_handle. unfold bind at 1. rewrite getM_eq. destruct (get_node h d); try done. unfold bind at 1, lift. destruct (name_from_str nm) as [k| | |]; try done.
  cbn. by intros [= <- <-].
Qed.
Lemma pagree_attributes E doc el l : forall h, (doc < h_next h)%nat -> (el < h_next h)%nat -> pagree (b_handle_attributes E doc el l h) (handle_attributes E doc el l h).
Proof.
  induction l as [|[n v| |] l IH]; intros h Hd He; cbn [handle_attributes b_handle_attributes]; try by left.
  apply pagree_bind; [by left|]. intros a h1 H1. assert (Hc : create_attribute_with doc n v h = (h1, Ok a)).
  { unfold pdom in H1. destruct (create_attribute_with doc n v h) as [? [| | |]]; try done. by injection H1 as -> ->. }
  pose proof (mono_create _ _ _ _ _ _ Hc). apply create_attribute_with_ok in Hc as (na & Hna & Hc & Ho).
  apply pagree_bind. { apply pagree_dom. eapply b_set_attribute_node_agree; [done|]. rewrite Hc, Ho. intros _ c [<-|[]]. split; [lia|]. intros. intros [= ->]. lia. }
  intros x h2 H2. pose proof (pmono_dom _ (mono_set_attribute_node E el a) _ _ _ H2). apply IH; lia.
Qed.
Definition yields {A} (P : A -> Prop) (m : M A) : Prop := forall h h' a, m h = (h', Ok a) -> P a.
Lemma yields_bind {A C} P (m : M A) (k : A -> M C) : (forall a, yields P (k a)) -> yields P (bind m k).
Proof. intros Hk h h' c. unfold bind. destruct (m h) as [h1 [a|e|p|]]; try done. apply Hk. Qed.
Lemma append_yields s c : yields (eq c) (append_child s c).
Proof.
  unfold append_child, insert_before. repeat first [apply yields_bind; intros ? | by intros ? ? ? [= _ <-] | done | match goal with |- yields _ (if ?x then _ else _) => destruct x end].
Qed.
Lemma pdom_ok {A} (m : M A) h h' a : pdom m h = (h', POk a) -> m h = (h', Ok a).
Proof. unfold pdom. destruct (m h) as [? [| | |]]; try done. by intros [= -> ->]. Qed.
Lemma pagree_append p n h : pagree (pdom (b_append_child p n []) h) (pdom (append_child p n) h).
Proof. apply pagree_dom. left. apply b_append_child_eq. Qed.
Lemma pagree_start E doc p n l h : (doc < h_next h)%nat -> pagree (b_handle_start E doc p n l h) (handle_start E doc p n l h).
Proof.
  intros Hd. unfold b_handle_start, handle_start. apply pagree_bind; [by left|]. intros nm h0 H0. assert (h0 = h) as -> by (destruct n; by injection H0).
  apply pagree_bind; [by left|]. intros e h1 [-> Hn]%create_element_ok. apply pagree_bind; [apply pagree_append|].
  intros e h2 H2. pose proof (pmono_dom _ (mono_append_child p (h_next h)) _ _ _ H2). apply pdom_ok, append_yields in H2 as <-.
  apply pagree_bind; [apply pagree_attributes; lia|]. by left.
Qed.
Lemma pagree_comment doc p t h : pagree (b_handle_comment doc p t h) (handle_comment doc p t h).
Proof. apply pagree_bind; [by left|]. intros. apply pagree_bind; [by left|]. intros. apply pagree_append. Qed.
Lemma pagree_text doc p t h : pagree (b_handle_text doc p t h) (handle_text doc p t h).
Proof. apply pagree_bind; [by left|]. intros. apply pagree_bind; [by left|]. intros. apply pagree_append. Qed.
Lemma pagree_cdata doc p t h : pagree (b_handle_cdata doc p t h) (handle_cdata doc p t h).
Proof. apply pagree_bind; [by left|]. intros. apply pagree_bind; [by left|]. intros. apply pagree_append. Qed.
Lemma pagree_pi doc p t h : pagree (b_handle_pi doc p t h) (handle_pi doc p t h).
Proof. apply pagree_bind; [by left|]. intros x ? _. destruct (pi_parts x). apply pagree_bind; [by left|]. intros. apply pagree_append. Qed.
Lemma pagree_decl doc v e s h : pagree (b_handle_decl doc v e s h) (handle_decl doc v e s h).
Proof.
  apply pagree_bind. { apply pagree_dom. left. unfold lift, xml_declaration, get_node. destruct (h_nodes h !! doc) as [n|] eqn:Hn; [|by rewrite borrow_mut_none]. by rewrite (borrow_mut_ok doc n) by gd. }
  intros [x|] h1 _; [by left|]. apply pagree_bind; [by left|]. intros. apply pagree_bind; [by left|]. intros. apply pagree_bind; [by left|]. intros. apply pagree_dom. left. apply b_set_xml_declaration_eq.
Qed.
Definition eagree {A} (a b : heap * list event * pres A) : Prop := a = b \/ (exists h l p, a = (h, l, PPanic p)) /\ exists h l p, b = (h, l, PPanic p).
Lemma eagree_panic {A} h1 l1 p1 h2 l2 p2 : eagree (A := A) (h1, l1, PPanic p1) (h2, l2, PPanic p2). Proof. right. by split; eexists _, _, _. Qed.
Lemma pmono_element E doc : forall k p evs h h' l r, element k E doc p evs h = (h', l, r) -> (h_next h <= h_next h')%nat.
Proof.
  induction k as [|k IH]; intros p evs h h' l r; cbn [element]; [by intros [= <- _ _]|].
  assert (St : forall A (m : PM A) rest, pmono m -> match m h with
      | (h1, POk _) => element k E doc p rest h1 | (h1, PErr e) => (h1, rest, PErr e) | (h1, PPanic q) => (h1, rest, PPanic q) | (h1, PDiverge) => (h1, rest, PDiverge) end = (h', l, r) -> (h_next h <= h_next h')%nat).
  { intros A m rest Hm. destruct (m h) as [h1 x] eqn:H1. pose proof (Hm _ _ _ H1). destruct x; [|by intros [= <- _ _]..]. intros H2%IH. lia. }
  destruct evs as [|[v e s|n at_|n at_| |t|t|t|t| |] rest]; try (by intros [= <- _ _]).
  - destruct (handle_start E doc p n at_ h) as [h1 x] eqn:H1. pose proof (pmono_start _ _ _ _ _ _ _ _ H1). destruct x as [el|e|q|]; [|by intros [= <- _ _]..].
    destruct (element k E doc el rest h1) as [[h2 rest'] y] eqn:H2. apply IH in H2. destruct y; [|by intros [= <- _ _]; lia..]. intros H3%IH. lia.
  - apply St, pmono_start. - apply St, pmono_comment. - apply St, pmono_pi. - apply St, pmono_text. - apply St, pmono_cdata.
Qed.
Lemma eagree_element E doc : forall k p evs h, (doc < h_next h)%nat -> eagree (b_element k E doc p evs h) (element k E doc p evs h).
Proof.
  induction k as [|k IH]; intros p evs h Hd; cbn [element b_element]; [by left|].
  assert (St : forall A (m1 m2 : PM A) rest, pmono m2 -> pagree (m1 h) (m2 h) -> eagree
      match m1 h with (h1, POk _) => b_element k E doc p rest h1 | (h1, PErr e) => (h1, rest, PErr e) | (h1, PPanic q) => (h1, rest, PPanic q) | (h1, PDiverge) => (h1, rest, PDiverge) end
      match m2 h with (h1, POk _) => element k E doc p rest h1 | (h1, PErr e) => (h1, rest, PErr e) | (h1, PPanic q) => (h1, rest, PPanic q) | (h1, PDiverge) => (h1, rest, PDiverge) end).
  { intros A m1 m2 rest Hm [->|[(h1 & p1 & ->) (h2 & p2 & ->)]]; [|apply eagree_panic]. destruct (m2 h) as [h1 x] eqn:H1. pose proof (Hm _ _ _ H1). destruct x; [|by left..]. apply IH. lia. }
  destruct evs as [|[v e s|n at_|n at_| |t|t|t|t| |] rest]; try (by left).
  - destruct (pagree_start E doc p n at_ h Hd) as [->|[(h1 & p1 & ->) (h2 & p2 & ->)]]; [|apply eagree_panic].
    destruct (handle_start E doc p n at_ h) as [h1 x] eqn:H1. pose proof (pmono_start _ _ _ _ _ _ _ _ H1). destruct x as [el|e|q|]; [|by left..].
    destruct (IH el rest h1) as [->|[(h3 & l3 & p3 & ->) (h4 & l4 & p4 & ->)]]; [lia| |apply eagree_panic].
    destruct (element k E doc el rest h1) as [[h2 rest'] y] eqn:H2. apply pmono_element in H2. destruct y; [|by left..]. apply IH. lia.
  - apply St; [apply pmono_start|by apply pagree_start].
  - apply St; [apply pmono_comment|apply pagree_comment].
  - apply St; [apply pmono_pi|apply pagree_pi].
  - apply St; [apply pmono_text|apply pagree_text].
  - apply St; [apply pmono_cdata|apply pagree_cdata].
Qed.
Lemma pagree_loop E doc : forall k evs h, (doc < h_next h)%nat -> pagree (b_document_loop k E doc evs h) (document_loop k E doc evs h).
Proof.
  induction k as [|k IH]; intros evs h Hd; cbn [document_loop b_document_loop]; [by left|].
  assert (St : forall A (m1 m2 : PM A) rest, pmono m2 -> pagree (m1 h) (m2 h) -> pagree
      match m1 h with (h1, POk _) => b_document_loop k E doc rest h1 | (h1, PErr e) => (h1, PErr e) | (h1, PPanic q) => (h1, PPanic q) | (h1, PDiverge) => (h1, PDiverge) end
      match m2 h with (h1, POk _) => document_loop k E doc rest h1 | (h1, PErr e) => (h1, PErr e) | (h1, PPanic q) => (h1, PPanic q) | (h1, PDiverge) => (h1, PDiverge) end).
  { intros A m1 m2 rest Hm [->|[(h1 & p1 & ->) (h2 & p2 & ->)]]; [|apply pagree_panic]. destruct (m2 h) as [h1 x] eqn:H1. pose proof (Hm _ _ _ H1). destruct x; [|by left..]. apply IH. lia. }
  destruct evs as [|[v e s|n at_|n at_| |t|t|t|t| |] rest]; try (by left).
  - apply St; [apply pmono_decl|apply pagree_decl].
  - destruct (pagree_start E doc doc n at_ h Hd) as [->|[(h1 & p1 & ->) (h2 & p2 & ->)]]; [|apply pagree_panic].
    destruct (handle_start E doc doc n at_ h) as [h1 x] eqn:H1. pose proof (pmono_start _ _ _ _ _ _ _ _ H1). destruct x as [el|e|q|]; [|by left..].
    destruct (eagree_element E doc (S (length rest)) el rest h1) as [->|[(h3 & l3 & p3 & ->) (h4 & l4 & p4 & ->)]]; [lia| |apply pagree_panic].
    destruct (element (S (length rest)) E doc el rest h1) as [[h2 rest'] y] eqn:H2. apply pmono_element in H2. destruct y; [apply IH; lia|apply IH; lia|by left..].
  - apply St; [apply pmono_start|by apply pagree_start].
  - by apply IH.
  - apply St; [apply pmono_comment|apply pagree_comment].
  - apply St; [apply pmono_pi|apply pagree_pi].
Qed.
Lemma pagree_read E evs h : pagree (b_read_events E evs h) (read_events E evs h).
Proof.
  unfold b_read_events, read_events.
  assert (He : pdom_unwrap (b_create_document_with_options None None None (set_add_namespaces options_new) []) h = pdom_unwrap (create_document None None None) h).
  { unfold pdom_unwrap, pdom, err_to_panic. by rewrite b_create_document_eq. }
  rewrite He. assert (Hd : pdom_unwrap (create_document None None None) h = (allocd (new_document None (set_add_namespaces options_new)) h, POk (h_next h))).
  { unfold pdom_unwrap, pdom, err_to_panic, create_document, create_document_with_options. cbn. rewrite ?lookup_insert. cbn. done. }
  rewrite Hd. apply pagree_loop. cbn. lia.
Qed.

(** ** All calls *)
Lemma b_out_eq {A} (f : A -> option id) (m : B A) (m' : M A) h : m [] h = m' h -> b_out f m [] h = out f m' h.
Proof. intros H. unfold b_out, out. rewrite b_bind_eq. by apply bind_cong'. Qed.
Lemma b_out_agree {A} (f : A -> option id) (m : B A) (m' : M A) h : agree (m [] h) (m' h) -> agree (b_out f m [] h) (out f m' h).
Proof. intros H. unfold b_out, out. rewrite b_bind_eq. apply agree_bind; [done|]. by left. Qed.
Lemma b_exec_eq E o h : sets_attribute o = false -> b_exec E o [] h = exec E o h.
Proof.
  destruct o; intros Hs; try done; cbn [exec b_exec]; apply b_out_eq.
  - apply b_create_document_eq. - apply b_insert_before_eq. - apply b_append_child_eq. - apply b_replace_child_eq. - apply b_remove_child_eq.
  - apply b_clone_node_eq. - apply b_normalize_eq. - apply b_set_node_value_eq. - apply b_set_node_value_eq. - apply b_append_data_eq. - apply b_insert_data_eq.
  - apply b_delete_data_eq. - apply b_replace_data_eq. - apply b_split_eq. - apply b_attr_set_value_eq. - apply b_attr_unset_value_eq.
  - apply b_remove_attribute_eq. - apply b_remove_attribute_ns_eq. - apply b_remove_attribute_node_eq. - apply b_set_xml_declaration_eq.
Qed.

(** ** Conflicts: where the plain functions can panic for a borrow *)
Definition rnb {A} (r : res A) : Prop := r <> Panic PBorrow.
Lemma rnb_bind {A C} (r : res A) (k : A -> res C) : rnb r -> (forall a, r = Ok a -> rnb (k a)) -> rnb (rbind r k).
Proof. intros Hr Hk. destruct r as [a|e|p|]; cbn; try done; [by apply Hk|]. by intros [= ->]. Qed.
Lemma rnb_get h i : rnb (get_node h i). Proof. unfold get_node, rnb. by destruct (h_nodes h !! i). Qed.
Lemma rnb_unwrap {A} (o : option A) : rnb (unwrap_opt o). Proof. by destruct o. Qed.
Lemma rnb_add b x y : rnb (usize_add b x y). Proof. unfold usize_add, rnb. destruct (_ <? _)%N; [done|]. by destruct b. Qed.
Lemma rnb_split s o : rnb (split_at_res s o). Proof. unfold split_at_res, rnb. by destruct (split_at s o). Qed.
Create HintDb rnb.
#[local] Hint Resolve rnb_get rnb_unwrap rnb_add rnb_split : rnb.
Ltac rn := repeat first [ match goal with |- rnb (rbind _ _) => apply rnb_bind; [|intros ? _] end | solve [auto with rnb] | (unfold rnb; done) | progress cbv zeta
  | match goal with |- rnb (match ?x with _ => _ end) => destruct x end | match goal with |- rnb (if ?x then _ else _) => destruct x end ].
Lemma rnb_from_str s : rnb (name_from_str s).
Proof. intros H. pose proof (name_from_str_spec s) as Hs. rewrite H in Hs. by destruct Hs as [(? & ? & _)|[[? _]|[[? _]|[? _]]]]. Qed.
#[local] Hint Resolve rnb_from_str : rnb.
Lemma rnb_new_ns u q : rnb (name_new_ns u q). Proof. unfold name_new_ns, check_namespace_uri. rn. Qed.
Lemma rnb_any h l : rnb (any_element h l). Proof. induction l; cbn; rn. Qed.
Lemma rnb_check h s c : rnb (check_same_document h s c). Proof. unfold check_same_document. rn. Qed.
Lemma rnb_parent h i : rnb (parent_node h i). Proof. unfold parent_node. rn. Qed.
Lemma rnb_owner h i : rnb (owner_document h i). Proof. unfold owner_document. rn. Qed.
Lemma rnb_children h i : rnb (child_nodes h i). Proof. unfold child_nodes. rn. Qed.
Lemma rnb_value h i : rnb (node_value h i). Proof. unfold node_value. rn. Qed.
Lemma rnb_next h i : rnb (next_sibling h i). Proof. unfold next_sibling. rn. Qed.
Lemma rnb_prev h i : rnb (previous_sibling h i). Proof. unfold previous_sibling. rn. Qed.
Lemma rnb_data h i : rnb (data h i). Proof. unfold data. rn. Qed.
#[local] Hint Resolve rnb_new_ns rnb_any rnb_check rnb_parent rnb_owner rnb_children rnb_value rnb_next rnb_prev rnb_data : rnb.
Lemma rnb_length h i : rnb (length_ h i). Proof. unfold length_. rn. Qed.
Lemma rnb_sub E h i o c : rnb (substring_data E h i o c). Proof. unfold substring_data. rn. Qed.
Lemma rnb_replace E v o c x : rnb (replace_value E v o c x). Proof. unfold replace_value. rn. Qed.
Lemma rnb_get_attr E h i n : rnb (get_attribute_node E h i n). Proof. unfold get_attribute_node. apply rnb_bind; [rn|]. intros m _. destruct (is_type NElement m); [|done]. pose proof (rnb_from_str n). unfold rnb in *. destruct (name_from_str n); congruence. Qed.
Lemma rnb_get_attr_ns E h i u n : rnb (get_attribute_node_ns E h i u n). Proof. unfold get_attribute_node_ns. apply rnb_bind; [rn|]. intros m _. destruct (is_type NElement m); [|done]. pose proof (rnb_new_ns u n). unfold rnb in *. destruct (name_new_ns u n); congruence. Qed.
#[local] Hint Resolve rnb_length rnb_sub rnb_replace rnb_get_attr rnb_get_attr_ns : rnb.

Definition nb {A} (m : M A) (h : heap) : Prop := rnb (m h).2.
Lemma nb_bind {A C} (m : M A) (k : A -> M C) h : nb m h -> (forall a h', m h = (h', Ok a) -> nb (k a) h') -> nb (bind m k) h.
Proof. intros Hm Hk. unfold nb, bind in *. destruct (m h) as [h' [a|e|p|]]; cbn in *; try done; [by apply Hk|]. intros [= ->]. by apply Hm. Qed.
Lemma nb_lift {A} (f : heap -> res A) h : rnb (f h) -> nb (lift f) h. Proof. done. Qed.
Lemma nb_ret {A} (a : A) h : nb (ret a) h. Proof. done. Qed.
Lemma nb_fail {A} e h : nb (A := A) (fail e) h. Proof. done. Qed.
Lemma nb_getM i h : nb (getM i) h. Proof. apply rnb_get. Qed.
Lemma nb_modify i f h : nb (modifyM i f) h. Proof. unfold nb, modifyM. by destruct (h_nodes h !! i). Qed.
Lemma nb_alloc n h : nb (allocM n) h. Proof. done. Qed.
Lemma nb_with {A} d (m : M A) h : (forall h, nb m h) -> nb (with_handle d m) h.
Proof. intros Hm. unfold with_handle. apply nb_bind; [apply nb_getM|]. intros. apply Hm. Qed.
Create HintDb nb.
#[local] Hint Resolve nb_ret nb_fail nb_getM nb_modify nb_alloc : nb.
Ltac nbt := repeat first [ match goal with |- nb (bind _ _) _ => apply nb_bind; [|intros ? ? _] | |- nb (lift _) _ => apply nb_lift; solve [rn] end | solve [auto with nb] | (unfold nb, rnb; done) | progress cbv zeta
  | match goal with |- nb (match ?x with _ => _ end) _ => destruct x end | match goal with |- nb (if ?x then _ else _) _ => destruct x end ].
Lemma nb_remove_child s o h : nb (remove_child s o) h. Proof. unfold remove_child. nbt. Qed.
Lemma nb_ioa s c p h : nb (insert_or_append s c p) h. Proof. unfold insert_or_append. nbt. Qed.
#[local] Hint Resolve nb_remove_child nb_ioa : nb.
Lemma nb_all s l : forall p k h, nb (insert_all s l p k) h. Proof. induction l; intros; cbn [insert_all]; nbt. Qed.
#[local] Hint Resolve nb_all : nb.
(** An insertion can conflict only when a node is put under itself. *)
Lemma nb_insert_before s c r h : (s = c -> forall n, h_nodes h !! s = Some n -> is_child_allowed (n_type n) (n_type n) = false) -> nb (insert_before s c r) h.
Proof.
  intros Hs. unfold insert_before. apply nb_bind; [nbt|]. intros ns h1 H1. rewrite getM_eq in H1. injection H1 as <- H1. apply nb_bind; [nbt|]. intros nc h2 H2. rewrite getM_eq in H2. injection H2 as <- H2.
  apply get_node_ok in H1, H2. destruct (is_child_allowed (n_type ns) (n_type nc)) eqn:Hal; cbn [negb]; [|nbt].
  assert (Hne : s <> c). { intros ->. assert (nc = ns) as -> by congruence. by rewrite (Hs eq_refl _ H1) in Hal. }
  rewrite (bool_decide_false (s = c)) by done. nbt.
Qed.
Lemma nb_replace_child s c o h : (s = c -> forall n, h_nodes h !! s = Some n -> is_child_allowed (n_type n) (n_type n) = false) -> nb (replace_child s c o) h.
Proof.
  intros Hs. unfold replace_child. apply nb_bind; [nbt|]. intros ns h1 H1. rewrite getM_eq in H1. injection H1 as <- H1. apply nb_bind; [nbt|]. intros nc h2 H2. rewrite getM_eq in H2. injection H2 as <- H2.
  apply get_node_ok in H1, H2. destruct (is_child_allowed (n_type ns) (n_type nc)) eqn:Hal; cbn [negb]; [|nbt].
  assert (Hne : s <> c). { intros ->. assert (nc = ns) as -> by congruence. by rewrite (Hs eq_refl _ H1) in Hal. }
  nbt. by apply nb_insert_before.
Qed.
Lemma nb_err {A} (m : M A) h : nb m h -> nb (err_to_panic PExplicit m) h.
Proof. unfold nb, err_to_panic. destruct (m h) as [h' [| | |]]; cbn; try done. Qed.
Lemma nb_append_data i x h : nb (append_data i x) h. Proof. unfold append_data. nbt. Qed.
Lemma nb_replace_data E i o c x h : nb (replace_data E i o c x) h. Proof. unfold replace_data. nbt. Qed.
#[local] Hint Resolve nb_err nb_append_data nb_replace_data : nb.
Lemma nb_delete_data E i o c h : nb (delete_data E i o c) h. Proof. unfold delete_data. nbt. Qed.
#[local] Hint Resolve nb_delete_data : nb.
Lemma nb_normalize_step s c h : nb (normalize_step s c) h. Proof. unfold normalize_step. nbt. Qed.
Lemma nb_iter {A} (f : A -> M unit) : (forall x h, nb (f x) h) -> forall l h, nb (iterM f l) h. Proof. intros Hf. induction l; intros; cbn [iterM]; nbt. Qed.
Lemma nb_map {A C} (f : A -> M C) : (forall x h, nb (f x) h) -> forall l h, nb (mapM_ f l) h. Proof. intros Hf. induction l; intros; cbn [mapM_]; nbt. Qed.
Lemma nb_clone d : forall k i h, nb (clone_rec k d i) h.
Proof. induction k as [|k IH]; intros; cbn [clone_rec]; nbt. apply nb_map. intros. apply IH. Qed.
Lemma nb_split E s o h : nb (DomOps.split E s o) h.
Proof.
  unfold DomOps.split. apply nb_bind; [nbt|]. intros n h1 H1. destruct (negb (is_character_data n)); [nbt|]. apply nb_bind; [nbt|]. intros len h2 H2. apply nb_bind; [nbt|]. intros nd h3 H3.
  apply nb_bind; [nbt|]. intros n' h4 H4. apply nb_bind; [nbt|]. intros nn h5 H5.
  assert (Hnn : n_type nn = NText \/ n_type nn = NCData). { destruct (n_type n'); try done; unfold bind, lift in H5; destruct (unwrap_opt (n_owner n')); try done; injection H5 as _ <-; cbn; auto. }
  apply nb_bind; [nbt|]. intros new h6 H6. rewrite allocM_eq in H6. injection H6 as <- <-. apply nb_bind; [nbt|]. intros p h7 H7. injection H7 as <- _. destruct p as [p|]; [|nbt].
  apply nb_bind; [nbt|]. intros nx h8 H8. injection H8 as <- _. apply nb_bind; [|nbt]. apply nb_insert_before. intros -> m. cbn. rewrite lookup_insert. intros [= <-]. destruct Hnn as [-> | ->]; done.
Qed.
Lemma nb_attr_set_value i v h : nb (attr_set_value i v) h.
Proof.
  unfold attr_set_value, attr_unset_value. apply nb_bind; [nbt|]. intros [] h1 _. apply nb_bind; [nbt|]. intros d h2 _. apply nb_bind; [nbt|]. intros nd h3 _. destruct (negb (is_type NDocument nd)); [done|].
  apply nb_bind; [nbt|]. intros t h4 H4. rewrite allocM_eq in H4. injection H4 as <- <-. apply nb_bind; [|nbt]. apply nb_insert_before. intros -> m. cbn. rewrite lookup_insert. by intros [= <-].
Qed.
Lemma nb_create_element d n h : nb (create_element d n) h. Proof. apply nb_with. intros. nbt. Qed.
Lemma nb_create_element_ns d u q h : nb (create_element_ns d u q) h. Proof. apply nb_with. intros. nbt. Qed.
#[local] Hint Resolve nb_create_element nb_create_element_ns : nb.
Lemma nb_create_document u q t o h : nb (create_document_with_options u q t o) h.
Proof.
  unfold create_document_with_options. apply nb_bind. { destruct t; [apply nb_with|]; nbt. }
  intros [] h1 _. apply nb_bind; [nbt|]. intros d h2 H2. rewrite allocM_eq in H2. injection H2 as <- <-. apply nb_bind; [nbt|]. intros e h3 H3. apply nb_bind; [|nbt]. destruct e as [e|]; [|nbt].
  apply nb_bind; [|nbt]. apply nb_insert_before. intros <- m Hm. exfalso.
  assert (K : forall (m : M id) x, (forall h h' e, m h = (h', Ok e) -> e = h_next h) -> bind m (fun e => ret (Some e)) (allocd (new_document t o) h1) = (h3, Ok (Some x)) -> x = S (h_next h1)).
  { intros m' x Hm' Hb. unfold bind in Hb. destruct (m' _) as [h4 [x'| | |]] eqn:H4; try done. injection Hb as <- <-. by apply Hm' in H4. }
  assert (L : forall A (r : res A) (f : A -> node) d h h' e, with_handle d (do? k := lift (fun _ => r) in allocM (f k)) h = (h', Ok e) -> e = h_next h).
  { intros A r f d h0 h' e. unfold with_handle. unfold bind at 1. rewrite getM_eq. destruct (get_node h0 d); try done. unfold bind, lift, allocM. destruct r; try done. by intros [= _ <-]. }
  assert (X : h_next h1 = S (h_next h1)); [|lia].
  destruct u as [u|], q as [q|]; try done; (eapply K; [|exact H3]); intros ? ? ?; apply L.
Qed.
Lemma nb_remove_attribute_node s o h : s <> o -> nb (remove_attribute_node s o) h.
Proof. intros Hne. unfold remove_attribute_node. rewrite (bool_decide_false (o = s)) by done. nbt. Qed.
Lemma nb_out {A} (f : A -> option id) (m : M A) h : nb m h -> nb (out f m) h.
Proof. intros. unfold out. by apply nb_bind. Qed.
Lemma permitted_self h p n : h_nodes h !! p = Some n -> is_child_allowed (n_type n) (n_type n) = true -> permitted h p p.
Proof.
  intros Hn Ha. exists (n_type n), (n_type n). unfold node_type_of. rewrite (get_node_some _ _ _ Hn). split; [done|]. split; [done|]. destruct (n_type n); cbn in *; try done; tauto.
Qed.
Lemma nb_self p c h : ~ (p = c /\ permitted h p p) -> p = c -> forall n, h_nodes h !! p = Some n -> is_child_allowed (n_type n) (n_type n) = false.
Proof. intros Hn -> n Hc. destruct (is_child_allowed _ _) eqn:Ha; [|done]. destruct Hn. split; [done|]. by eapply permitted_self. Qed.
Lemma find_first_in {A} (p : A -> bool) l x : find_first p l = Some x -> In x l.
Proof. induction l as [|y l IH]; cbn; [done|]. destruct (p y); [intros [= ->]; by left|]. intros H. right. by apply IH. Qed.
Lemma attribute_not_self h s n attrs nss p E x : WInv h -> wf_env E -> h_nodes h !! s = Some n -> n_ext n = XElement attrs nss ->
  option_map snd (find_first p (e_ord_attr E attrs)) = Some x -> s <> x.
Proof.
  intros HI HE Hn Hx Hf ->. destruct (find_first _ _) as [[k a]|] eqn:Hff; [|done]. cbn in Hf. injection Hf as ->. apply find_first_in in Hff. apply (In_perm _ _ _ (wf_ord_attr E HE attrs)) in Hff.
  destruct (winv_node h HI x n Hn) as (He & _). unfold wext_ok in He. rewrite Hx in He. destruct He as (Ht & _ & Ha & _). destruct (Ha _ _ Hff) as (si & Hsi & Hst & _).
  unfold info in Hsi. rewrite Hn in Hsi. cbn in Hsi. injection Hsi as <-. cbn in Hst. congruence.
Qed.
Lemma nb_exec E h o : WInv h -> wf_env E -> sets_attribute o = false -> ~ conflict h o -> nb (exec E o) h.
Proof.
  intros HI HE Hs Ht. destruct o; try done; cbn [exec]; apply nb_out.
  all: try solve [apply nb_with; intros; unfold new_attribute; nbt | nbt].
  - apply nb_create_document.
  - unfold create_document_type. nbt.
  - apply nb_insert_before, nb_self. intros [<- ?]. apply Ht. by constructor.
  - apply nb_insert_before, nb_self. intros [<- ?]. apply Ht. by constructor.
  - apply nb_replace_child, nb_self. intros [<- ?]. apply Ht. by constructor.
  - apply nb_clone.
  - unfold normalize. apply nb_bind; [nbt|]. intros. apply nb_iter. apply nb_normalize_step.
  - apply nb_modify.
  - apply nb_modify.
  - unfold insert_data. nbt.
  - apply nb_split.
  - apply nb_attr_set_value.
  - unfold attr_unset_value. nbt.
  - unfold remove_attribute. apply nb_bind; [nbt|]. intros a h1 H1. injection H1 as <- H1. destruct a as [a|]; [|nbt]. apply nb_bind; [|nbt]. apply nb_remove_attribute_node.
    unfold get_attribute_node, get_node in H1. destruct (h_nodes h !! e) as [n|] eqn:Hn; [|done]. cbn in H1. destruct (is_type NElement n); [|done]. destruct (name_from_str name); try done. injection H1 as H1.
    destruct (n_ext n) eqn:Hx; try done. by eapply attribute_not_self.
  - unfold remove_attribute_ns. apply nb_bind; [nbt|]. intros a h1 H1. injection H1 as <- H1. destruct a as [a|]; [|nbt]. apply nb_bind; [|nbt]. apply nb_remove_attribute_node.
    unfold get_attribute_node_ns, get_node in H1. destruct (h_nodes h !! e) as [n|] eqn:Hn; [|done]. cbn in H1. destruct (is_type NElement n); [|done]. destruct (name_new_ns uri local); try done. injection H1 as H1.
    destruct (n_ext n) eqn:Hx; try done. by eapply attribute_not_self.
  - apply nb_remove_attribute_node. intros ->. apply Ht. constructor.
  - unfold set_xml_declaration. nbt.
  - unfold nb, drop_nodes. by destruct (bool_decide _).
Qed.

(** *** Setting an attribute *)
Lemma rnb_scan E f : (forall tok, rnb (f tok)) -> forall s k, rnb (scan E f s k).
Proof.
  intros Hf. induction s as [|c s IH]; intros k; [done|]. cbn [scan]. destruct k; [|apply IH].
  destruct (find_token E (c :: s)) as [[tok n]|]; [apply rnb_bind; [apply Hf|]; intros r _|]; (apply rnb_bind; [apply IH|]; intros r' _; rn).
Qed.
Lemma rnb_char m : rnb (char_from_entity m). Proof. unfold char_from_entity. rn. Qed.
#[local] Hint Resolve rnb_char : rnb.
Lemma rnb_normalize E r cd : (forall m, rnb (r m)) -> forall k v, rnb (normalize_attribute_value k E r cd v).
Proof.
  intros Hr. induction k as [|k IH]; intros v; [done|]. cbn [normalize_attribute_value]. apply rnb_bind; [|intros; rn]. apply rnb_scan. intros [m|m|m|]; [|rn..].
  apply rnb_bind; [apply Hr|]. intros [x|] _; [apply IH|done].
Qed.
Lemma rnb_resolve h i m : rnb (resolve_entity h i m).
Proof.
  unfold resolve_entity, doc_type. rn. pose proof (rnb_from_str m) as Hm. unfold rnb, unwrap_res in *. destruct (name_from_str m); congruence.
Qed.
Lemma rnb_text h l : rnb (attr_text h l). Proof. induction l; cbn; rn. Qed.
#[local] Hint Resolve rnb_resolve rnb_text rnb_normalize : rnb.
Lemma rnb_attr_value E h i : rnb (attr_value E h i). Proof. unfold attr_value. rn. Qed.
Lemma rnb_add_ns h i : rnb (add_namespaces h i). Proof. unfold add_namespaces. rn. Qed.
#[local] Hint Resolve rnb_attr_value rnb_add_ns : rnb.
Lemma nb_insert_mapping i p u h : nb (insert_mapping i p u) h. Proof. unfold insert_mapping. nbt. Qed.
#[local] Hint Resolve nb_insert_mapping : nb.
Lemma nb_set_attribute_node E s a h : owner_link h a <> Some s -> nb (set_attribute_node E s a) h.
Proof.
  intros Ho. unfold set_attribute_node. apply nb_bind; [nbt|]. intros ns h1 H1. rewrite getM_eq in H1. injection H1 as <- H1. apply nb_bind; [nbt|]. intros na h2 H2. rewrite getM_eq in H2. injection H2 as <- H2.
  apply get_node_ok in H1, H2. unfold owner_link in Ho. rewrite H2 in Ho.
  destruct (is_type NElement ns) eqn:Ts; [|nbt]. destruct (is_type NAttribute na) eqn:Ta; [|nbt]. cbn [andb negb]. apply is_type_true in Ts, Ta. assert (Hne : a <> s) by congruence.
  apply nb_bind; [nbt|]. intros [] h3 H3. injection H3 as <- _. apply nb_bind; [nbt|]. intros [] h4 H4.
  assert (O4 : exists n, h_nodes h4 !! a = Some n /\ n_owner n = n_owner na). { destruct (n_ext na); try done. rewrite (modifyM_eq _ _ _ _ H2) in H4. injection H4 as <-. rewrite lookup_upd. by eexists. }
  clear H4. cbv zeta. apply nb_bind; [nbt|]. intros [] h5 H5.
  assert (O5 : exists n, h_nodes h5 !! a = Some n /\ n_owner n = n_owner na).
  { destruct (is_namespace_attribute (n_name na)); [|by injection H5 as <-]. unfold bind, lift in H5. destruct (let? v := attr_value E h4 a in unwrap_opt v) as [v| | |]; try done.
    by rewrite (insert_mapping_keeps _ _ _ _ _ _ a H5). }
  apply nb_bind; [nbt|]. intros ns6 h6 H6. rewrite getM_eq in H6. injection H6 as <- H6. apply get_node_ok in H6. destruct (n_ext ns6) as [| | | |attrs nss| |]; try by nbt.
  apply nb_bind; [nbt|]. intros [] h7 H7. rewrite (modifyM_eq _ _ _ _ H6) in H7. injection H7 as <-. apply nb_bind; [nbt|]. intros d h8 H8. injection H8 as <- H8.
  assert (Hd : d <> s).
  { intros ->. destruct O5 as (n5 & Hn5 & Ho5). unfold owner_document in H8. unfold get_node in H8. rewrite lookup_upd_ne, Hn5 in H8 by done. cbn [rbind] in H8.
    destruct (upgrade _ (n_owner n5)) as [x|] eqn:Hu; [|done]. injection H8 as ->. apply upgrade_some in Hu as [Hu _]. congruence. }
  rewrite (bool_decide_false (d = s)) by done. nbt.
Qed.
Lemma nb_set_new_attribute E s k v h : (s < h_next h)%nat -> owner_link h s <> Some s -> nb (set_new_attribute E s k v) h.
Proof.
  intros Hlt Ho. unfold set_new_attribute. apply nb_bind; [nbt|]. intros ns h1 H1. rewrite getM_eq in H1. injection H1 as <- H1. apply get_node_ok in H1. unfold owner_link in Ho. rewrite H1 in Ho.
  apply nb_bind; [nbt|]. intros d h2 H2. injection H2 as <- H2. apply nb_bind; [unfold new_attribute; nbt|]. intros n h3 H3. apply new_attribute_with in H3 as (_ & Hn & _).
  apply nb_bind; [nbt|]. intros a h4 H4. rewrite allocM_eq in H4. injection H4 as <- <-. apply nb_bind; [|nbt]. apply nb_set_attribute_node. unfold owner_link. cbn. rewrite lookup_insert, Hn.
  intros [= ->]. destruct (n_owner ns); cbn in H2; congruence.
Qed.
