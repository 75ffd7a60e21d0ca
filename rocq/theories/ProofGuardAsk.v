(** * ProofGuardAsk: with shared guards only, the reads answer as without *)
From Coq Require Import Lia.
From Verif Require Import SpecGuard ProofBorrow ProofName ProofInv ProofSteps ProofElem ProofAttr ProofGuard.

Lemma b_get_ok {A} (f : node -> A) i n g h : h_nodes h !! i = Some n -> nomut g -> b_get f i g h = (h, Ok (f n)).
Proof. intros Hn Hg. unfold b_get. by rewrite (borrow_ok i n). Qed.
Lemma b_get_none {A} (f : node -> A) i g h : h_nodes h !! i = None -> b_get f i g h = (h, Panic PNoHandle).
Proof. intros Hn. unfold b_get. by rewrite borrow_none. Qed.
Lemma b_get_eq {A} (f : node -> A) i g h : nomut g -> b_get f i g h = (h, let? n := get_node h i in Ok (f n)).
Proof. intros Hg. unfold get_node. destruct (h_nodes h !! i) eqn:Hn; [by erewrite b_get_ok|by rewrite b_get_none]. Qed.
(** A bind of reads. *)
Lemma rd_bind {A C} (m : B A) (k : A -> B C) (r : res A) (l : A -> res C) g h :
  m g h = (h, r) -> (forall a, r = Ok a -> k a g h = (h, l a)) -> b_bind m k g h = (h, rbind r l).
Proof. intros H Hk. unfold b_bind, bind. rewrite H. destruct r; cbn [rbind]; [by apply Hk|done..]. Qed.
Lemma rd_borrow {A} i (k : node -> B A) (l : node -> res A) g h : nomut g ->
  (forall n, h_nodes h !! i = Some n -> k n ((i, false) :: g) h = (h, l n)) -> borrow i k g h = (h, rbind (get_node h i) l).
Proof. intros Hg Hk. unfold get_node. destruct (h_nodes h !! i) as [n|] eqn:Hn; [|by rewrite borrow_none]. rewrite (borrow_ok i n) by done. by apply Hk. Qed.
Lemma rd_map {A C} (f : A -> B C) (r : A -> res C) g h : (forall x, f x g h = (h, r x)) -> forall l,
  b_map f l g h = (h, concat_res (fun x => let? y := r x in Ok [y]) l).
Proof.
  intros Hf. induction l as [|x l IH]; [done|]. cbn [b_map concat_res]. unfold b_bind at 1, bind at 1. rewrite Hf. destruct (r x) as [y| | |]; cbn [rbind]; try done.
  unfold b_bind at 1, bind at 1. rewrite IH. by destruct (concat_res _ l).
Qed.
Lemma concat_concat {A C} (r : A -> res (list C)) l :
  (let? p := concat_res (fun x => let? y := r x in Ok [y]) l in Ok (concat p)) = concat_res r l.
Proof.
  induction l as [|x l IH]; [done|]. cbn [concat_res]. destruct (r x) as [y| | |]; cbn [rbind]; try done. rewrite <- IH. by destruct (concat_res _ l).
Qed.

Section reads.
  Context (E : env) (h : heap).
  Lemma b_handle_eq g i : b_handle i g h = (h, let? _ := get_node h i in Ok tt).
  Proof. unfold b_handle, b_free, with_handle, bind. rewrite getM_eq. unfold get_node. by destruct (h_nodes h !! i). Qed.
  Lemma b_is_trait_eq T i g : nomut g -> b_is_trait T i g h = (h, is_trait T h i).
  Proof. intros Hg. destruct T; cbn [b_is_trait is_trait]; by apply b_get_eq. Qed.
  Lemma b_as_f_eq t i g : nomut g -> b_as_f t i g h = (h, as_f t h i).
  Proof. intros Hg. unfold b_as_f, as_f, b_is_f, b_bind, bind. rewrite b_get_eq by done. unfold get_node. destruct (h_nodes h !! i) as [n|]; cbn [rbind]; [|done]. by destruct (type_eqb _ _). Qed.
  Lemma b_as_char_data_eq i g : nomut g -> b_as_char_data i g h = (h, as_char_data h i).
  Proof. intros Hg. unfold b_as_char_data, as_char_data. apply rd_borrow; [done|]. intros n _. by destruct (n_type n). Qed.
  Lemma b_as_trait_eq T i g : nomut g -> b_as_trait T i g h = (h, as_trait T h i).
  Proof. intros Hg. destruct T; cbn [b_as_trait as_trait]; by (apply b_as_f_eq || apply b_as_char_data_eq). Qed.
  Lemma b_attributes_eq i g : nomut g -> b_attributes i g h = (h, attributes h i).
  Proof.
    intros Hg. unfold b_attributes, attributes, b_bind, bind. rewrite b_is_eq by done. unfold get_node. destruct (h_nodes h !! i) as [n|] eqn:Hn; cbn [rbind]; [|done].
    destruct (is_type NElement n); [|done]. by erewrite b_get_ok.
  Qed.
  Lemma b_attr_value_shared i g : nomut g -> b_attr_value E i g h = (h, attr_value E h i).
  Proof.
    intros Hg. unfold b_attr_value, attr_value, b_has_child_nodes. unfold b_bind at 1, bind. unfold b_bind at 1, bind. rewrite b_child_nodes_eq by done. unfold child_nodes, get_node.
    destruct (h_nodes h !! i) as [n|] eqn:Hn; cbn [rbind]; [|done]. unfold b_ret at 1, ret at 1.
    destruct (is_nil (n_children n)); cbn [negb]; [done|]. unfold b_bind at 1, bind. rewrite b_child_nodes_eq by done. unfold child_nodes, get_node. rewrite Hn. cbn [rbind].
    unfold b_bind at 1, bind. rewrite b_attr_text_eq by (intros; apply Hg). destruct (attr_text h (n_children n)) as [raw| | |]; cbn [rbind]; try done.
    unfold b_bind, bind, lift. rewrite (normalize_ext E (fun e => (b_resolve i e g h).2) (resolve_entity h i)).
    2:{ intros e. by rewrite b_resolve_eq. }
    by destruct (normalize_attribute_value entity_fuel E (resolve_entity h i) false raw).
  Qed.
  Lemma b_search_eq p : forall k i g, nomut g -> b_search k p i g h = (h, search_elements k h p i).
  Proof.
    induction k as [|k IH]; intros i g Hg; [done|]. cbn [b_search search_elements]. unfold b_bind at 1, bind at 1. rewrite b_is_eq by done. unfold get_node at 1 2.
    destruct (h_nodes h !! i) as [n|] eqn:Hn; cbn [rbind]; [|done]. destruct (is_type NElement n); [|done]. rewrite (borrow_ok i n) by done.
    rewrite <- (concat_concat (fun c => let? nc := get_node h c in if is_type NElement nc then search_elements k h p c else Ok [])).
    unfold b_bind at 1, bind at 1. rewrite (rd_map _ (fun c => let? nc := get_node h c in if is_type NElement nc then search_elements k h p c else Ok [])).
    - by destruct (concat_res _ (n_children n)).
    - intros c. unfold b_bind, bind. rewrite b_is_eq by (apply nomut_cons, Hg). destruct (get_node h c) as [nc| | |]; cbn [rbind]; try done.
      destruct (is_type NElement nc); [|done]. by apply IH, nomut_cons.
  Qed.
  Lemma b_on_root_eq (f : id -> B (list id)) (f' : id -> res (list id)) i g : nomut g -> (forall e, f e g h = (h, f' e)) ->
    b_on_root f i g h = (h, let? r := document_element h i in match r with Some e => f' e | None => Ok [] end).
  Proof.
    intros Hg Hf. unfold b_on_root, b_document_element. eapply rd_bind.
    - unfold b_bind, bind. rewrite b_child_nodes_eq by done. unfold child_nodes, document_element, first_child. by destruct (get_node h i).
    - intros [e|] _; [apply Hf|done].
  Qed.
  Lemma b_value_of_eq o g : nomut g -> b_value_of E o g h = (h, value_of_attribute_node E h o).
  Proof.
    intros Hg. destruct o as [a|]; [|done]. cbn [b_value_of value_of_attribute_node]. unfold b_bind, bind. rewrite b_is_eq by done. destruct (get_node h a) as [n| | |]; cbn [rbind]; try done.
    destruct (is_type NAttribute n); [|done]. by apply b_attr_value_shared.
  Qed.
  Lemma b_has_attribute_eq i nm g : nomut g -> b_has_attribute i nm g h = (h, has_attribute h i nm).
  Proof.
    intros Hg. unfold b_has_attribute, b_has_attribute_in, has_attribute, b_bind, bind. rewrite b_is_eq by done. unfold get_node. destruct (h_nodes h !! i) as [n|] eqn:Hn; cbn [rbind]; [|done].
    destruct (is_type NElement n); [|done]. destruct (name_from_str nm); try done. by erewrite b_get_ok.
  Qed.
  Lemma b_has_attribute_ns_eq i u nm g : nomut g -> b_has_attribute_ns i u nm g h = (h, has_attribute_ns h i u nm).
  Proof.
    intros Hg. unfold b_has_attribute_ns, b_has_attribute_in, has_attribute_ns, b_bind, bind. rewrite b_is_eq by done. unfold get_node. destruct (h_nodes h !! i) as [n|] eqn:Hn; cbn [rbind]; [|done].
    destruct (is_type NElement n); [|done]. destruct (name_new_ns u nm); try done. by erewrite b_get_ok.
  Qed.
  Lemma b_contains_mapping_eq i p g : nomut g -> b_contains_mapping i p g h = (h, contains_mapping h i p).
  Proof. intros Hg. eapply rd_bind; [by apply b_add_namespaces_eq|]. intros b _. destruct (negb b); [done|]. by apply b_get_eq. Qed.
  Lemma b_get_namespace_eq i p g : nomut g -> b_get_namespace i p g h = (h, get_namespace h i p).
  Proof. intros Hg. eapply rd_bind; [by apply b_add_namespaces_eq|]. intros b _. destruct (negb b); [done|]. by apply b_get_eq. Qed.
  Lemma b_get_prefix_eq i u g : nomut g -> b_get_prefix E i u g h = (h, get_prefix E h i u).
  Proof. intros Hg. eapply rd_bind; [by apply b_add_namespaces_eq|]. intros b _. destruct (negb b); [done|]. by apply b_get_eq. Qed.
  Lemma b_resolve_namespace_eq p : forall k i g, nomut g -> b_resolve_namespace_rec k i p g h = (h, resolve_namespace_rec k h i p).
  Proof.
    induction k as [|k IH]; intros i g Hg; [done|]. cbn [b_resolve_namespace_rec resolve_namespace_rec]. eapply rd_bind; [by apply b_add_namespaces_eq|]. intros b _. destruct (negb b); [done|].
    eapply rd_bind; [by apply b_get_namespace_eq|]. intros [u|] _; [done|]. apply rd_borrow; [done|]. intros n _. destruct (n_parent n) as [q|]; [|done].
    unfold b_bind, bind, b_upgrade, b_pure, lift. unfold upgrade. destruct (alive h q); cbn [unwrap_opt]; [|done]. by apply IH, nomut_cons.
  Qed.
  Lemma b_resolve_prefix_eq u : forall k i g, nomut g -> b_resolve_prefix_rec k E i u g h = (h, resolve_prefix_rec k E h i u).
  Proof.
    induction k as [|k IH]; intros i g Hg; [done|]. cbn [b_resolve_prefix_rec resolve_prefix_rec]. eapply rd_bind; [by apply b_add_namespaces_eq|]. intros b _. destruct (negb b); [done|].
    eapply rd_bind; [by apply b_get_prefix_eq|]. intros [| |x] _; [|done..]. apply rd_borrow; [done|]. intros n _. destruct (n_parent n) as [q|]; [|done].
    unfold b_bind, bind, b_upgrade, b_pure, lift. unfold upgrade. destruct (alive h q); cbn [unwrap_opt]; [|done]. by apply IH, nomut_cons.
  Qed.
  (** ** Display *)
  Lemma b_fmt_list_eq {A} (f : A -> B str) (r : A -> res str) g : (forall x, f x g h = (h, r x)) -> forall l, b_fmt_list f l g h = (h, fmt_list r l).
  Proof. intros Hf l. unfold b_fmt_list, fmt_list. eapply rd_bind; [by apply rd_map|]. done. Qed.
  Lemma rd_same {A C} (m : B A) (k : A -> B C) a r g : m g h = (h, Ok a) -> k a g h = (h, r) -> b_bind m k g h = (h, r).
  Proof. intros H Hk. unfold b_bind, bind. by rewrite H. Qed.
  Lemma b_as_unwrap_some t i n g : h_nodes h !! i = Some n -> nomut g -> is_type t n = true -> b_as_unwrap t i g h = (h, Ok tt).
  Proof. intros Hn Hg Ht. rewrite b_as_unwrap_eq by done. unfold get_node. rewrite Hn. cbn [rbind]. by rewrite Ht. Qed.
  Lemma b_fmt_data_eq f i n g : h_nodes h !! i = Some n -> nomut g -> n_type n = NText \/ n_type n = NCData \/ n_type n = NComment ->
    b_fmt_data f i g h = (h, let? d := data h i in Ok match d with None => [] | Some s => f s end).
  Proof.
    intros Hn Hg Ht. unfold b_fmt_data. eapply (rd_same _ _ i).
    { unfold b_err_to_panic, err_to_panic. rewrite b_as_char_data_eq by done. unfold as_char_data, get_node. rewrite Hn. cbn [rbind]. destruct Ht as [-> |[-> | ->]]; done. }
    eapply rd_bind; [by apply b_data_eq|]. done.
  Qed.
  Lemma b_node_name_some i n g : h_nodes h !! i = Some n -> nomut g -> b_node_name i g h = (h, Ok (n_name n)).
  Proof. intros Hn Hg. rewrite b_node_name_eq by done. unfold node_name, get_node. by rewrite Hn. Qed.
  Lemma b_child_nodes_some i n g : h_nodes h !! i = Some n -> nomut g -> b_child_nodes i g h = (h, Ok (n_children n)).
  Proof. intros Hn Hg. rewrite b_child_nodes_eq by done. unfold child_nodes, get_node. by rewrite Hn. Qed.
  Lemma b_node_value_some i n g : h_nodes h !! i = Some n -> nomut g -> b_node_value i g h = (h, Ok (n_value n)).
  Proof. intros Hn Hg. rewrite b_node_value_eq by done. unfold node_value, get_node. by rewrite Hn. Qed.
  Lemma b_fmt_node_eq : forall k i g, nomut g -> b_fmt_node k E i g h = (h, fmt_node k E h i).
  Proof.
    induction k as [|k IH]; intros i g Hg; [done|]. cbn [b_fmt_node fmt_node]. unfold get_node at 1. destruct (h_nodes h !! i) as [n|] eqn:Hn; cbn [rbind].
    2:{ unfold b_bind, bind. rewrite b_node_type_eq by done. unfold node_type_of, get_node. by rewrite Hn. }
    eapply rd_same. { rewrite b_node_type_eq by done. unfold node_type_of, get_node. rewrite Hn. reflexivity. }
    assert (Hu : forall t, n_type n = t -> b_as_unwrap t i g h = (h, Ok tt)) by (intros t Ht; eapply b_as_unwrap_some; [done..|]; unfold is_type; rewrite Ht; by destruct t).
    pose proof (b_node_name_some i n g Hn Hg) as HN. pose proof (b_child_nodes_some i n g Hn Hg) as HC. pose proof (b_node_value_some i n g Hn Hg) as HV.
    destruct (n_type n) eqn:Ht.
    - (* Element *)
      eapply rd_same; [by apply Hu|]. eapply rd_same; [exact HN|]. eapply rd_bind; [by apply b_attributes_eq|]. intros attrs _.
      eapply rd_bind. { apply b_fmt_list_eq. intros x. eapply rd_bind; [by apply IH|]. done. }
      intros a _. eapply rd_same; [exact HC|]. eapply rd_bind; [apply b_fmt_list_eq; intros x; by apply IH|]. intros c _. by eapply rd_same; [exact HN|].
    - (* Attribute *)
      eapply rd_same; [by apply Hu|]. eapply rd_same; [exact HN|]. unfold fmt_attribute, get_node. rewrite Hn. cbn [rbind]. eapply rd_bind; [by apply b_attr_value_shared|]. done.
    - eapply b_fmt_data_eq; eauto.
    - eapply b_fmt_data_eq; eauto.
    - (* EntityReference *)
      eapply rd_same; [by apply Hu|]. by eapply rd_same; [exact HN|].
    - (* Entity *)
      eapply rd_same; [by apply Hu|]. by erewrite b_get_ok.
    - (* PI *)
      eapply rd_same; [by apply Hu|]. eapply rd_same; [exact HV|]. eapply rd_same; [exact HN|]. unfold fmt_processing_instruction. by destruct (n_value n).
    - eapply b_fmt_data_eq; eauto.
    - (* Document *)
      eapply rd_same; [by apply Hu|]. eapply rd_bind; [by apply b_xml_declaration_eq|]. intros decl _. eapply rd_bind; [by apply b_doc_type_eq|]. intros dt _.
      eapply rd_bind; [destruct dt; [by apply IH|done]|]. intros dts _.
      eapply rd_same; [exact HC|]. eapply rd_bind; [apply b_fmt_list_eq; intros x; by apply IH|]. done.
    - (* DocumentType *)
      eapply rd_same; [by apply Hu|]. eapply rd_same; [exact HN|]. eapply rd_same; [unfold b_dt_fields; by erewrite b_get_ok|].
      destruct (match n_ext n with XDocumentType e t p s x => (e, t, p, s, x) | _ => ([], [], None, None, None) end) as [[[[ents nots] pub] sys] subs].
      eapply rd_bind; [apply b_fmt_list_eq; intros x; by apply IH|]. intros es _. eapply rd_bind; [apply b_fmt_list_eq; intros x; by apply IH|]. done.
    - (* DocumentFragment *)
      eapply rd_same; [by apply Hu|]. eapply rd_same; [exact HN|]. eapply rd_same; [exact HC|]. eapply rd_bind; [apply b_fmt_list_eq; intros x; by apply IH|]. done.
    - (* Notation *)
      eapply rd_same; [by apply Hu|]. by erewrite b_get_ok.
  Qed.
  Lemma b_name_part_eq {A} (f : Name -> A) i g : nomut g -> b_name_part f i g h = (h, let? n := node_name h i in Ok (f n)).
  Proof. intros Hg. eapply rd_bind; [by apply b_node_name_eq|]. done. Qed.
  Lemma b_ans_eq {A} (f : A -> answer) (m : B A) r g : m g h = (h, r) -> b_ans f m g h = (h, ans f r).
  Proof. intros H. eapply rd_bind; [exact H|]. done. Qed.
  Lemma b_ask_eq q g : nomut g -> b_ask E q g h = (h, ask E h q).
  Proof.
    intros Hg. destruct q; cbn [b_ask ask]; apply b_ans_eq;
      try solve [ by apply b_get_eq | by apply b_name_part_eq
        | by apply b_is_trait_eq | by apply b_as_trait_eq | by apply b_node_name_eq | by apply b_node_value_eq | by apply b_node_type_eq | by apply b_parent_node_eq
        | by apply b_child_nodes_eq | by apply b_previous_sibling_eq | by apply b_next_sibling_eq | by apply b_attributes_eq | by apply b_owner_document_eq
        | by apply b_attr_value_shared | by apply b_length_eq | by apply b_data_eq | by apply b_substring_eq | by apply b_doc_type_eq | by apply b_xml_declaration_eq
        | by apply b_get_attribute_node_eq | by apply b_get_attribute_node_ns_eq | by apply b_has_attribute_eq | by apply b_has_attribute_ns_eq
        | by apply b_contains_mapping_eq | by apply b_get_namespace_eq | by apply b_get_prefix_eq | by apply b_resolve_namespace_eq | by apply b_resolve_prefix_eq
        | by apply b_search_eq | by apply b_fmt_node_eq
        | eapply rd_bind; [by apply b_get_attribute_node_eq|]; intros; by apply b_value_of_eq
        | eapply rd_bind; [by apply b_get_attribute_node_ns_eq|]; intros; by apply b_value_of_eq
        | eapply rd_bind; [by apply b_get_prefix_eq|]; done
        | eapply rd_bind; [by apply b_node_value_eq|]; done
        | eapply rd_bind; [by apply b_attributes_eq|]; done
        | unfold b_on_root; apply b_on_root_eq; [done|]; intros; by apply b_search_eq ].
    - unfold b_has_child_nodes, b_bind, bind. rewrite b_child_nodes_eq by done. unfold child_nodes, has_child_nodes. by destruct (get_node h i).
    - unfold b_bind, bind. rewrite b_handle_eq. unfold is_supported. by destruct (get_node h i).
    - unfold b_bind, bind. rewrite b_handle_eq. unfold specified. by destruct (get_node h i).
    - unfold b_owner_element, owner_element. apply rd_borrow; [done|]. intros n _. by destruct (n_ext n).
    - unfold b_document_element, b_bind, bind. rewrite b_child_nodes_eq by done. unfold child_nodes, document_element, first_child. by destruct (get_node h i).
    - unfold b_implementation, implementation. apply rd_borrow; [done|]. intros n _. by destruct (n_ext n).
    - unfold b_get_element_by_id, get_element_by_id. apply rd_borrow; [done|]. intros n _. by destruct (n_ext n).
  Qed.
End reads.

(** ** A query leaves the state alone, whatever is held *)
Definition ro {A} (m : B A) : Prop := forall g h, (m g h).1 = h.
Lemma ro_ret {A} (a : A) : ro (b_ret a). Proof. done. Qed.
Lemma ro_fail {A} e : ro (b_fail (A := A) e). Proof. done. Qed.
Lemma ro_panic {A} p : ro (b_panic (A := A) p). Proof. done. Qed.
Lemma ro_pure {A} (r : res A) : ro (b_pure r). Proof. done. Qed.
Lemma ro_upgrade o : ro (b_upgrade o). Proof. done. Qed.
Lemma ro_diverge {A} : ro (A := A) (fun _ h => (h, Diverge)). Proof. done. Qed.
Lemma ro_bind {A C} (m : B A) (k : A -> B C) : ro m -> (forall a, ro (k a)) -> ro (b_bind m k).
Proof. intros Hm Hk g h. unfold b_bind, bind. pose proof (Hm g h) as H. destruct (m g h) as [h1 [a|e|p|]]; cbn in H; subst; [apply Hk|done..]. Qed.
Lemma ro_borrow {A} i (k : node -> B A) : (forall n, ro (k n)) -> ro (borrow i k).
Proof. intros Hk g h. unfold borrow. destruct (h_nodes h !! i); [|done]. destruct (bool_decide _); [done|]. apply Hk. Qed.
Lemma ro_err {A} p (m : B A) : ro m -> ro (b_err_to_panic p m).
Proof. intros Hm g h. unfold b_err_to_panic, err_to_panic. pose proof (Hm g h) as H. by destruct (m g h) as [h1 [a|e|q|]]. Qed.
Lemma ro_handle i : ro (b_handle i). Proof. intros g h. by rewrite b_handle_eq. Qed.
Lemma ro_at {A} (f : heap -> B A) : (forall h, ro (f h)) -> ro (fun g h => f h g h). Proof. intros H g h. apply H. Qed.
Ltac rot := intros; repeat first
  [ progress intros | apply ro_ret | apply ro_fail | apply ro_panic | apply ro_pure | apply ro_upgrade | apply ro_diverge | apply ro_handle | apply ro_bind | apply ro_borrow | apply ro_err | assumption
  | progress cbv zeta | match goal with H : _ |- _ => solve [apply H] end | match goal with |- ro (match ?x with _ => _ end) => destruct x end ].
Lemma ro_map {A C} (f : A -> B C) : (forall x, ro (f x)) -> forall l, ro (b_map f l).
Proof. intros Hf. induction l; cbn [b_map]; rot. Qed.
Lemma ro_fmt_list {A} (f : A -> B str) : (forall x, ro (f x)) -> forall l, ro (b_fmt_list f l).
Proof. intros Hf l. unfold b_fmt_list. rot. by apply ro_map. Qed.
Lemma ro_attr_text l : ro (b_attr_text l). Proof. induction l; cbn [b_attr_text]; rot. Qed.
Lemma ro_attr_value E i : ro (b_attr_value E i). Proof. unfold b_attr_value. rot; [apply ro_attr_text|done]. Qed.
Lemma ro_search p : forall k i, ro (b_search k p i). Proof. induction k as [|k IH]; intros i; [done|]. cbn [b_search]. rot. apply ro_map. rot. Qed.
Lemma ro_ns p : forall k i, ro (b_resolve_namespace_rec k i p). Proof. induction k as [|k IH]; intros i; [done|]. cbn [b_resolve_namespace_rec]. rot. Qed.
Lemma ro_px E u : forall k i, ro (b_resolve_prefix_rec k E i u). Proof. induction k as [|k IH]; intros i; [done|]. cbn [b_resolve_prefix_rec]. rot. Qed.
#[local] Opaque b_fmt_list b_attr_value.
Lemma ro_fmt E : forall k i, ro (b_fmt_node k E i).
Proof. induction k as [|k IH]; intros i; [done|]. cbn [b_fmt_node]. rot; first [apply ro_fmt_list; rot | apply ro_attr_value]. Qed.
Lemma ro_ask E q : ro (b_ask E q).
Proof.
  destruct q; cbn [b_ask]; unfold b_ans; try destruct T; rot; try first [apply ro_attr_value | apply (ro_at (fun h => b_fmt_node (S (walk_fuel h)) E i)); intros; apply ro_fmt
    | apply (ro_at (fun h => b_search (walk_fuel h) _ i)); intros; apply ro_search | apply (ro_at (fun h => b_search (walk_fuel h) _ n)); intros; apply ro_search | unfold b_value_of; rot; apply ro_attr_value
    | apply (ro_at (fun h => b_resolve_namespace_rec (walk_fuel h) i p)); intros; apply ro_ns | apply (ro_at (fun h => b_resolve_prefix_rec (walk_fuel h) E i uri)); intros; apply ro_px ].
Qed.
