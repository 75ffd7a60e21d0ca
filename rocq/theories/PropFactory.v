(** * C48-C50: factories *)
From Coq Require Import Lia.
From Verif Require Import SpecTree ProofText ProofName PropName History ProofInv ProofSteps ProofOps ProofTree ProofInsert.

Definition special_name (s : str) : Name := mkName None None s.
(** The node made by a factory call on the document [d]. *)
Inductive makes (d : id) : op -> node_type -> Name -> option str -> extension -> Prop :=
| mk_element s n : plain_name s n -> makes d (OCreateElement d s) NElement n None (XElement [] [])
| mk_element_ns u s n : qualified_name u s n -> makes d (OCreateElementNs d u s) NElement n None (XElement [] [])
| mk_attribute s n : plain_name s n -> makes d (OCreateAttribute d s) NAttribute n None (XAttribute None)
| mk_attribute_ns u s n : qualified_name u s n -> makes d (OCreateAttributeNs d u s) NAttribute n None (XAttribute None)
| mk_text v : makes d (OCreateText d v) NText (special_name (lit "#text")) (Some v) XNone
| mk_cdata v : makes d (OCreateCData d v) NCData (special_name (lit "#cdata-section")) (Some v) XNone
| mk_comment v : makes d (OCreateComment d v) NComment (special_name (lit "#comment")) (Some v) XNone
| mk_pi s n v : plain_name s n -> ~ xml_target s -> makes d (OCreatePI d s v) NProcessingInstruction n v XNone
| mk_fragment : makes d (OCreateFragment d) NDocumentFragment (special_name (lit "#document-fragment")) None XNone
| mk_entity_ref s n : plain_name s n -> makes d (OCreateEntityReference d s) NEntityReference n None XNone
| mk_notation s n pub sys : plain_name s n -> makes d (OCreateNotation d s pub sys) NNotation n None (XNotation pub sys)
| mk_entity s n pub sys : plain_name s n -> makes d (OCreateEntity d s pub sys) NEntity n None (XEntity pub sys None)
| mk_internal s n v : plain_name s n -> makes d (OCreateInternalEntity d s v) NEntity n (Some v) (XEntity None None None).

Lemma plain_name_ok s n : plain_name s n <-> name_from_str s = Ok n.
Proof. symmetry. apply C08_accepts. Qed.
Lemma qualified_name_ok u s n : qualified_name u s n <-> name_new_ns u s = Ok n.
Proof. rewrite C11_new_ns_ok. unfold qualified_name. by setoid_rewrite plain_name_ok. Qed.
(** The heaps differ in one new node. *)
Definition one_new (h h' : heap) (i : id) (n : node) : Prop :=
  h_nodes h !! i = None /\ h_nodes h' !! i = Some n /\ forall j, j <> i -> h_nodes h' !! j = h_nodes h !! j.
Lemma allocd_one_new h n : Inv h -> one_new h (allocd n h) (h_next h) n.
Proof.
  intros HI. split; [|split].
  - destruct (h_nodes h !! h_next h) eqn:Hx; [|done]. pose proof (inv_lt h HI _ _ Hx). lia.
  - cbn. by rewrite lookup_insert.
  - intros j Hj. cbn. by rewrite lookup_insert_ne.
Qed.
Lemma handle_eq {A} d nd (m : M A) h : h_nodes h !! d = Some nd -> with_handle d m h = m h.
Proof. intros Hd. unfold with_handle, bind, getM, lift, get_node. by rewrite Hd. Qed.
Lemma bind_lift_ok {A B} (f : heap -> res A) a (k : A -> M B) h : f h = Ok a -> bind (lift f) k h = k a h.
Proof. intros H. unfold bind, lift. by rewrite H. Qed.

Theorem C49_creates : forall E h d o t nm v x, reachable h -> node_type_of h d = Ok NDocument -> makes d o t nm v x ->
  exists h' i, exec E o h = (h', Ok (Some i)) /\ one_new h h' i (mkNode t nm v None (Some d) [] x).
Proof.
  intros E h d o t nm v x Hr (nd & Hd & Htd)%node_type_ok Hm. pose proof (reachable_inv h Hr) as HI.
  assert (G : exec E o h = (allocd (mkNode t nm v None (Some d) [] x) h, Ok (Some (h_next h)))).
  2:{ eexists _, _. split; [exact G|]. by apply allocd_one_new. }
  destruct Hm; rewrite ?plain_name_ok, ?qualified_name_ok in *; cbn [exec];
    unfold out, create_element, create_element_ns, create_attribute, create_attribute_ns, create_text_node, create_cdata_section, create_comment,
      create_processing_instruction, create_document_fragment, create_entity_reference, create_notation, create_entity, create_internal_entity;
    unfold bind at 1; rewrite (handle_eq d nd) by done;
    try (rewrite (bind_lift_ok _ n) by done); try done.
  (* the processing instruction *)
  destruct (str_eqb (to_ascii_lowercase s) XML_PI_RESERVED) eqn:Hx; [apply xml_target_iff in Hx; done|].
  by rewrite (bind_lift_ok _ n) by done.
Qed.
Print Assumptions C49_creates.
(** [create_attribute_with] makes a Text node as well, which the attribute lists. *)
Theorem C49_attribute_with : forall E h d s nm v, reachable h -> node_type_of h d = Ok NDocument -> plain_name s nm ->
  exists h1 h' t a, exec E (OCreateAttributeWith d s v) h = (h', Ok (Some a)) /\
    one_new h h1 t (mkNode NText (special_name (lit "#text")) (Some v) None (Some d) [] XNone) /\
    one_new h1 h' a (mkNode NAttribute nm None None (Some d) [t] (XAttribute None)).
Proof.
  intros E h d s nm v Hr (nd & Hd & Htd)%node_type_ok Hm%plain_name_ok. pose proof (reachable_inv h Hr) as HI.
  exists (allocd (new_text d v) h), (allocd (mkNode NAttribute nm None None (Some d) [h_next h] (XAttribute None)) (allocd (new_text d v) h)), (h_next h), (S (h_next h)).
  split.
  { cbn [exec]. unfold out, create_attribute_with. unfold bind at 1. rewrite (handle_eq d nd) by done. rewrite (bind_lift_ok _ nm) by done. done. }
  split; [by apply allocd_one_new|]. split; [|split].
  - cbn. rewrite lookup_insert_ne by lia. destruct (h_nodes h !! S (h_next h)) eqn:Hx; [|done]. pose proof (inv_lt h HI _ _ Hx). lia.
  - cbn. by rewrite lookup_insert.
  - intros j Hj. cbn. by rewrite lookup_insert_ne.
Qed.
Print Assumptions C49_attribute_with.
(** The calls that take a name, and what they do with a bad one: nothing. *)
Inductive names (d : id) : op -> str -> Prop :=
| nm_element s : names d (OCreateElement d s) s
| nm_element_ns u s : names d (OCreateElementNs d u s) s
| nm_attribute s : names d (OCreateAttribute d s) s
| nm_attribute_with s v : names d (OCreateAttributeWith d s v) s
| nm_attribute_ns u s : names d (OCreateAttributeNs d u s) s
| nm_pi s v : ~ xml_target s -> names d (OCreatePI d s v) s
| nm_entity_ref s : names d (OCreateEntityReference d s) s
| nm_notation s p q : names d (OCreateNotation d s p q) s
| nm_entity s p q : names d (OCreateEntity d s p q) s
| nm_internal s v : names d (OCreateInternalEntity d s v) s.
Lemma bind_lift_err {A B} (f : heap -> res A) e (k : A -> M B) h : f h = Err e -> bind (lift f) k h = (h, Err e).
Proof. intros H. unfold bind, lift. by rewrite H. Qed.
Theorem C49_bad_name : forall E h d o s, node_type_of h d = Ok NDocument -> names d o s ->
  (syntax_fault s -> exec E o h = (h, Err Syntax)) /\ (character_fault s -> exec E o h = (h, Err InvalidCharacter)).
Proof.
  intros E h d o s (nd & Hd & Htd)%node_type_ok Hn.
  assert (G : forall e, name_from_str s = Err e -> exec E o h = (h, Err e)).
  { intros e He. assert (He' : forall u, name_new_ns u s = Err e) by (intros u; unfold name_new_ns; by rewrite He).
    destruct Hn; cbn [exec];
    unfold out, create_element, create_element_ns, create_attribute, create_attribute_with, create_attribute_ns,
      create_processing_instruction, create_entity_reference, create_notation, create_entity, create_internal_entity;
    unfold bind at 1; rewrite (handle_eq d nd) by done; try (rewrite (bind_lift_err _ e) by done); try done.
    destruct (str_eqb (to_ascii_lowercase s) XML_PI_RESERVED) eqn:Hx; [apply xml_target_iff in Hx; done|].
    by rewrite (bind_lift_err _ e) by done. }
  split; intros H; apply G; [by apply C08_syntax_error|by apply C08_character_error].
Qed.
Print Assumptions C49_bad_name.
Theorem C49_pi_reserved : forall E h d s v, node_type_of h d = Ok NDocument -> xml_target s -> exec E (OCreatePI d s v) h = (h, Err Syntax).
Proof.
  intros E h d s v (nd & Hd & Htd)%node_type_ok Hx%xml_target_iff. cbn [exec]. unfold out, create_processing_instruction, bind at 1.
  rewrite (handle_eq d nd) by done. by rewrite Hx.
Qed.
Print Assumptions C49_pi_reserved.
(** The document type has no owner. *)
Theorem C49_document_type : forall E h s nm pub sys, reachable h -> plain_name s nm ->
  exists h' i, exec E (OCreateDocumentType s pub sys) h = (h', Ok (Some i)) /\
    one_new h h' i (mkNode NDocumentType nm None None None [] (XDocumentType [] [] pub sys None)).
Proof.
  intros E h s nm pub sys Hr Hn%plain_name_ok. eexists _, _. split; [|by apply allocd_one_new, reachable_inv].
  cbn [exec]. unfold out, create_document_type, bind, lift. by rewrite Hn.
Qed.
Print Assumptions C49_document_type.
Example C49_example : exists h, run env0 [OCreateDocument None None None options_new] empty_heap = Some h /\
  makes 0 (OCreateElementNs 0 (lit "urn:a") (lit "p:e")) NElement (mkName (Some (lit "urn:a")) (Some (lit "p")) (lit "e")) None (XElement [] []) /\
  makes 0 (OCreatePI 0 (lit "xmlish") None) NProcessingInstruction (mkName None None (lit "xmlish")) None XNone /\
  xml_target (lit "xMl").
Proof.
  eexists. split; [by vm_compute|]. split; [|split].
  - apply mk_element_ns, qualified_name_ok. by vm_compute.
  - apply mk_pi; [apply plain_name_ok; by vm_compute|]. by intros (a & b & c & ? & _).
  - apply xml_target_iff. by vm_compute.
Qed.

(** ** C48 *)
(** What the arguments of [create_document] name as the document element. *)
Inductive root_name : option str -> option str -> Name -> Prop :=
| rn_plain s n : plain_name s n -> root_name None (Some s) n
| rn_qualified u s n : qualified_name u s n -> root_name (Some u) (Some s) n.
Definition unchanged (h h' : heap) : Prop := forall i n, h_nodes h !! i = Some n -> h_nodes h' !! i = Some n.

Theorem C48_empty : forall h dt o, reachable h -> (forall t, dt = Some t -> node_type_of h t = Ok NDocumentType) ->
  exists h' d, create_document_with_options None None dt o h = (h', Ok d) /\
    one_new h h' d (mkNode NDocument (special_name (lit "#document")) None None None [] (XDocument None dt [] o)).
Proof.
  intros h dt o Hr Hdt. exists (allocd (new_document dt o) h), (h_next h). split; [|by apply allocd_one_new, reachable_inv].
  unfold create_document_with_options. destruct dt as [t|]; [|done].
  destruct (proj1 (node_type_ok h t _) (Hdt t eq_refl)) as (nt & Ht & _). unfold bind at 1. by rewrite (handle_eq t nt).
Qed.
Print Assumptions C48_empty.
Theorem C48_named : forall h u q dt o nm, reachable h -> (forall t, dt = Some t -> node_type_of h t = Ok NDocumentType) -> root_name u q nm ->
  exists h' d e, create_document_with_options u q dt o h = (h', Ok d) /\
    h_nodes h !! d = None /\ h_nodes h !! e = None /\ d <> e /\
    h_nodes h' !! d = Some (mkNode NDocument (special_name (lit "#document")) None None None [e] (XDocument None dt [] o)) /\
    h_nodes h' !! e = Some (mkNode NElement nm None (Some d) (Some d) [] (XElement [] [])) /\
    forall j, j <> d -> j <> e -> h_nodes h' !! j = h_nodes h !! j.
Proof.
  intros h u q dt o nm Hr Hdt Hrn. pose proof (reachable_inv h Hr) as HI.
  set (d := h_next h). set (e := S d). set (h1 := allocd (new_document dt o) h). set (h2 := allocd (new_element d nm) h1).
  assert (Hfresh : forall j, (h_next h <= j)%nat -> h_nodes h !! j = None).
  { intros j Hj. destruct (h_nodes h !! j) eqn:Hx; [|done]. pose proof (inv_lt h HI _ _ Hx). lia. }
  assert (Hd1 : h_nodes h1 !! d = Some (new_document dt o)) by (cbn; by rewrite lookup_insert).
  assert (Hd2 : h_nodes h2 !! d = Some (new_document dt o)) by (cbn; rewrite lookup_insert_ne by (subst d; lia); by rewrite lookup_insert).
  assert (He2 : h_nodes h2 !! e = Some (new_element d nm)) by (cbn; by rewrite lookup_insert).
  set (h3 := upd d (set_children [e] (new_document dt o)) (upd e (set_owner (Some d) (set_parent (Some d) (new_element d nm))) h2)).
  exists h3, d, e. split.
  { unfold create_document_with_options. unfold bind at 1.
    assert (Hdt' : match dt with Some t => with_handle t (ret tt) | None => ret tt end h = (h, Ok tt)).
    { destruct dt as [t|]; [|done]. destruct (proj1 (node_type_ok h t _) (Hdt t eq_refl)) as (nt & Ht & _). by rewrite (handle_eq t nt). }
    rewrite Hdt'. rewrite bind_allocM. fold h1 d. unfold bind at 1.
    assert (Hel : match u, q with
      | Some u, Some q => do? e := create_element_ns d u q in ret (Some e)
      | None, Some q => do? e := create_element d q in ret (Some e)
      | Some _, None => fail Namespace
      | None, None => ret None
      end h1 = (h2, Ok (Some e))).
    { destruct Hrn as [s n Hn%plain_name_ok|w s n Hn%qualified_name_ok]; unfold create_element, create_element_ns, bind at 1;
        rewrite (handle_eq d (new_document dt o)) by done; rewrite (bind_lift_ok _ n) by done; done. }
    rewrite Hel. unfold bind at 1.
    assert (Ha : append_child d e h2 = (h3, Ok e)).
    { unfold append_child, insert_before. unfold getM at 1. rewrite (bind_lift_ok _ _ _ h2 (get_node_some _ _ _ Hd2)).
      unfold getM at 1. rewrite (bind_lift_ok _ _ _ h2 (get_node_some _ _ _ He2)).
      change (negb (is_child_allowed (n_type (new_document dt o)) (n_type (new_element d nm)))) with false. cbv iota.
      change (is_type NDocument (new_document dt o)) with true. change (is_type NElement (new_element d nm)) with true.
      change (is_type NDocumentFragment (new_element d nm)) with false. cbn [andb].
      rewrite (bind_lift_ok _ false) by done. rewrite bind_ret.
      rewrite (bind_lift_ok _ tt).
      2:{ unfold check_same_document. rewrite (get_node_some _ _ _ Hd2), (get_node_some _ _ _ He2). cbn [rbind].
          change (is_type NDocument (new_document dt o)) with true. unfold upgrade. cbn [n_owner new_element].
          assert (Hal : alive h2 d = true) by (apply alive_true; eauto). rewrite Hal. cbn [unwrap_opt rbind]. by rewrite bool_decide_true. }
      rewrite (bind_lift_ok _ None). 2:{ unfold parent_node. by rewrite (get_node_some _ _ _ He2). }
      rewrite bind_ret, bool_decide_false by (subst e; lia).
      rewrite (bind_modifyM _ _ (new_element d nm)) by done.
      assert (Hd3 : forall n, h_nodes (upd e n h2) !! d = Some (new_document dt o)) by (intros n; rewrite lookup_upd_ne by (subst e; lia); done).
      unfold bind at 1, insert_or_append, getM. rewrite (bind_lift_ok _ _ _ _ (get_node_some _ _ _ (Hd3 _))).
      by rewrite (modifyM_eq _ _ _ _ (Hd3 _)). }
    unfold bind at 1. rewrite Ha. done. }
  split; [apply Hfresh; subst d; lia|]. split; [apply Hfresh; subst e d; lia|]. split; [subst e; lia|].
  split; [unfold h3; by rewrite lookup_upd|]. split; [unfold h3; rewrite lookup_upd_ne by (subst e; lia); by rewrite lookup_upd|].
  intros j Hj1 Hj2. unfold h3. rewrite !lookup_upd_ne by congruence. cbn. by rewrite !lookup_insert_ne by (subst e d; congruence).
Qed.
Print Assumptions C48_named.
(** Failures leave every existing node as it was (the new document is dropped; the model keeps it as garbage). *)
Theorem C48_fails : forall h dt o, reachable h -> (forall t, dt = Some t -> node_type_of h t = Ok NDocumentType) ->
  (forall u, exists h', create_document_with_options (Some u) None dt o h = (h', Err Namespace) /\ unchanged h h') /\
  (forall s e, name_from_str s = Err e -> exists h', create_document_with_options None (Some s) dt o h = (h', Err e) /\ unchanged h h') /\
  (forall u s e, name_new_ns u s = Err e -> exists h', create_document_with_options (Some u) (Some s) dt o h = (h', Err e) /\ unchanged h h').
Proof.
  intros h dt o Hr Hdt. pose proof (reachable_inv h Hr) as HI. set (d := h_next h). set (h1 := allocd (new_document dt o) h).
  assert (Hd1 : h_nodes h1 !! d = Some (new_document dt o)) by (cbn; by rewrite lookup_insert).
  assert (Hun : unchanged h h1).
  { intros i n Hi. cbn. rewrite lookup_insert_ne; [done|]. pose proof (inv_lt h HI i n Hi). lia. }
  assert (Hdt' : match dt with Some t => with_handle t (ret tt) | None => ret tt end h = (h, Ok tt)).
  { destruct dt as [t|]; [|done]. destruct (proj1 (node_type_ok h t _) (Hdt t eq_refl)) as (nt & Ht & _). by rewrite (handle_eq t nt). }
  unfold create_document_with_options.
  split; [|split].
  - intros u. exists h1. split; [|done]. unfold bind at 1. by rewrite Hdt'.
  - intros s e He. exists h1. split; [|done]. unfold bind at 1. rewrite Hdt'. rewrite bind_allocM. fold h1 d. unfold bind at 1 2, create_element.
    rewrite (handle_eq d (new_document dt o)) by done. by rewrite (bind_lift_err _ e).
  - intros u s e He. exists h1. split; [|done]. unfold bind at 1. rewrite Hdt'. rewrite bind_allocM. fold h1 d. unfold bind at 1 2, create_element_ns.
    rewrite (handle_eq d (new_document dt o)) by done. by rewrite (bind_lift_err _ e).
Qed.
Print Assumptions C48_fails.
(** [create_document] is the same with only the add-namespaces option. *)
Theorem C48_create_document : forall u q dt h, exists o, create_document u q dt h = create_document_with_options u q dt o h /\
  has_add_namespaces o = true /\ has_assume_ids o = false /\ has_parse_entities o = false.
Proof. intros u q dt h. exists (set_add_namespaces options_new). split; [done|]. by vm_compute. Qed.
Print Assumptions C48_create_document.
Example C48_example : root_name (Some (lit "urn:a")) (Some (lit "p:e")) (mkName (Some (lit "urn:a")) (Some (lit "p")) (lit "e")) /\
  exists h', create_document (Some (lit "urn:a")) (Some (lit "p:e")) None empty_heap = (h', Ok 0) /\ child_nodes h' 0 = Ok [1] /\ parent_node h' 1 = Ok (Some 0)
   /\ (create_document (Some (lit "urn:a")) None None h').2 = Err Namespace /\ (create_document None (Some (lit "a b")) None h').2 = Err InvalidCharacter.
Proof. split; [apply rn_qualified, qualified_name_ok; by vm_compute|]. eexists. split; [by vm_compute|]. by vm_compute. Qed.

(** ** C50 *)
Theorem C50_features : forall f v, has_feature f v = true <-> (f = lit "Core" \/ f = lit "XML") /\ (v = lit "1.0" \/ v = lit "2.0").
Proof. intros f v. unfold has_feature. by rewrite andb_true_iff, !orb_true_iff, !str_eqb_true. Qed.
Print Assumptions C50_features.
Example C50_example : has_feature (lit "XML") (lit "2.0") = true /\ has_feature (lit "xml") (lit "1.0") = false /\ has_feature (lit "Core") (lit "3.0") = false.
Proof. by vm_compute. Qed.
