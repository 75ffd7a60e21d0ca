(** * C69: what a node was made with is what it answers, for as long as it lives *)
From Coq Require Import Lia.
From Verif Require Import NsModel SpecWalk ProofText ProofName PropName ProofInv ProofSteps ProofOps ProofTree ProofElem ProofWalk PropTree PropFactory PropClone.
From Verif Require Import SpecGetters.

(** ** The parts of the extension no call changes *)
Definition fixed_ext (x : extension) : extension :=
  match x with
  | XDocument _ dt _ o => XDocument None dt [] o
  | XAttribute _ => XAttribute None
  | XElement _ _ => XElement [] []
  | _ => x
  end.
Lemma ext_change_fixed x y : ext_change x y -> fixed_ext y = fixed_ext x.
Proof. by destruct 1. Qed.
Definition fixed (h : heap) (i : id) : option extension := n ← h_nodes h !! i; Some (fixed_ext (n_ext n)).
Lemma fixed_upd h i n n' j : h_nodes h !! i = Some n -> fixed_ext (n_ext n') = fixed_ext (n_ext n) -> fixed (upd i n' h) j = fixed h j.
Proof.
  intros Hn Hx. unfold fixed. destruct (decide (i = j)) as [->|Hne]; [|by rewrite lookup_upd_ne]. rewrite lookup_upd, Hn. cbn. by rewrite Hx.
Qed.
Lemma prim_fixed l h h' i x : prim l h h' -> fixed h' i = Some x -> (i < h_next h)%nat -> fixed h i = Some x.
Proof.
  intros Hp Hs Hlt. destruct Hp as [h n H1 H2|h j n v H1|h p c np nc k H1 H2 H3 H4 H5 H6 H7 H8 H9|h p c np nc k H1 H2 H3|h p c np nc k H1 H2 H3 H4|h j n H1 H2|h j n y H1 H2 H3|h j n H1|h l H1].
  - unfold fixed, allocd in *. cbn in Hs. by rewrite lookup_insert_ne in Hs by lia.
  - by rewrite (fixed_upd _ _ n) in Hs.
  - rewrite (fixed_upd _ p np) in Hs; [by rewrite (fixed_upd _ c nc) in Hs| |done]. by rewrite lookup_upd_ne.
  - destruct (decide (p = c)) as [->|Hne].
    + assert (np = nc) by congruence. subst np. rewrite upd_upd in Hs. by rewrite (fixed_upd _ c nc) in Hs.
    + rewrite (fixed_upd _ c nc) in Hs; [by rewrite (fixed_upd _ p np) in Hs| |done]. by rewrite lookup_upd_ne.
  - destruct (decide (p = c)) as [->|Hne].
    + assert (np = nc) by congruence. subst np. rewrite upd_upd in Hs. by rewrite (fixed_upd _ c nc) in Hs.
    + rewrite (fixed_upd _ c nc) in Hs; [by rewrite (fixed_upd _ p np) in Hs| |done]. by rewrite lookup_upd_ne.
  - by rewrite (fixed_upd _ _ n) in Hs.
  - rewrite (fixed_upd _ _ n) in Hs; [done|done|]. by apply ext_change_fixed.
  - by rewrite (fixed_upd _ _ n) in Hs.
  - unfold fixed in *. destruct (h_nodes (dropped l h) !! i) as [m|] eqn:Hm; [|done]. apply lookup_dropped in Hm as [_ Hm]. by rewrite Hm.
Qed.
Lemma isteps_fixed L h h' i x : isteps L h h' -> fixed h' i = Some x -> (i < h_next h)%nat -> fixed h i = Some x.
Proof.
  intros H. induction H as [|h1 h2 h3 (l & Hl & Hp) _ IH]; [done|]. intros Hx Hlt. eapply prim_fixed; [done| |done]. apply IH; [done|].
  pose proof (prim_next _ _ _ Hp). lia.
Qed.
Lemma later_fixed h h' i n n' : reachable h -> later h h' -> h_nodes h !! i = Some n -> h_nodes h' !! i = Some n' ->
  fixed_ext (n_ext n') = fixed_ext (n_ext n).
Proof.
  intros Hr Hl Hn Hn'. pose proof (later_isteps h h' Hr Hl) as Hs.
  assert (H : fixed h' i = Some (fixed_ext (n_ext n'))) by (unfold fixed; by rewrite Hn').
  eapply isteps_fixed in H; [|done|by eapply inv_lt; [apply reachable_inv|]]. unfold fixed in H. rewrite Hn in H. by injection H.
Qed.
Lemma same_made_intro h i n h' j n' : h_nodes h !! i = Some n -> h_nodes h' !! j = Some n' ->
  n_type n' = n_type n -> n_name n' = n_name n -> fixed_ext (n_ext n') = fixed_ext (n_ext n) -> same_made h i h' j.
Proof.
  intros Hn Hn' Ht Hm Hx. unfold same_made, node_type_of, namespace_uri, tag_name, pi_target, Access.prefix, local_name, node_name, doc_type, implementation, specified,
    dt_public_id, dt_system_id, dt_internal_subset, dt_entities, dt_notations, ent_public_id, ent_system_id, ent_notation_name, not_public_id, not_system_id.
  rewrite (get_node_some _ _ _ Hn), (get_node_some _ _ _ Hn'). cbn [rbind]. rewrite Ht, Hm.
  destruct (n_ext n), (n_ext n'); cbn in Hx; try discriminate; try (injection Hx; intros; subst); split_and!; done.
Qed.

(** No call on any node changes these answers. *)
Theorem C69_fixed : forall h h' i, reachable h -> later h h' -> alive h i = true -> alive h' i = true -> same_made h i h' i.
Proof.
  intros h h' i Hr Hl [n Hn]%alive_true [n' Hn']%alive_true. destruct (C24_identity h h' i n n' Hr Hl Hn Hn') as (H1 & H2 & _).
  eapply same_made_intro; try done. by eapply later_fixed.
Qed.
Print Assumptions C69_fixed.

(** ** Factories *)
Lemma carries_plain h i n s : h_nodes h !! i = Some n -> plain_name s (n_name n) -> carries_name h i None s.
Proof.
  intros Hn Hp. pose proof (proj1 (plain_name_ok _ _) Hp) as Hok. apply name_from_str_print in Hok as [Hpr _].
  unfold carries_name, namespace_uri, tag_name, pi_target, Access.prefix, local_name, node_name. rewrite (get_node_some _ _ _ Hn). cbn [rbind]. rewrite Hpr.
  destruct Hp as [(H1 & _ & ->)|(p & l & H1 & _ & _ & ->)]; cbn; split_and!; try done; [by left|]. right. by exists p, l.
Qed.
Lemma carries_qualified h i n u s : h_nodes h !! i = Some n -> qualified_name u s (n_name n) -> carries_name h i (Some u) s.
Proof.
  intros Hn (m & Hp & _ & _ & Hm). pose proof (proj1 (plain_name_ok _ _) Hp) as Hok. apply name_from_str_print in Hok as [Hpr _].
  unfold carries_name, namespace_uri, tag_name, pi_target, Access.prefix, local_name, node_name. rewrite (get_node_some _ _ _ Hn). cbn [rbind]. rewrite Hm.
  unfold name_to_string in *. cbn [nm_prefix nm_local nm_ns]. rewrite Hpr.
  destruct Hp as [(H1 & _ & ->)|(p & l & H1 & _ & _ & ->)]; cbn; split_and!; try done; [by left|]. right. by exists p, l.
Qed.
Lemma carries_special_name h i n s : h_nodes h !! i = Some n -> colon_free s -> n_name n = special_name s -> carries_special h i s.
Proof.
  intros Hn Hc Hm. split; [|done]. unfold carries_name, namespace_uri, tag_name, pi_target, Access.prefix, local_name, node_name. rewrite (get_node_some _ _ _ Hn).
  cbn [rbind]. rewrite Hm. cbn. split_and!; try done. by left.
Qed.
Lemma same_reads h i h' o : same_made h i h' i -> reads_as_made h i o -> reads_as_made h' i o.
Proof.
  intros (H1 & H2 & H3 & H4 & H5 & H6 & H7 & H8 & H9 & H10 & H11 & H12 & H13 & H14 & H15 & H16 & H17 & H18 & H19).
  destruct o; cbn [reads_as_made]; try done; unfold carries_special, carries_name, ids_of_doctype, ids_of_entity; congruence || idtac;
    rewrite ?H1, ?H2, ?H3, ?H4, ?H5, ?H6, ?H7, ?H8, ?H9, ?H10, ?H11, ?H12, ?H13, ?H14, ?H15, ?H16, ?H17, ?H18, ?H19; done.
Qed.
Lemma handle_out {A} d (m : M A) h h' i (f : A -> option id) : out f (with_handle d m) h = (h', Ok (Some i)) -> exists nd, h_nodes h !! d = Some nd /\ out f m h = (h', Ok (Some i)).
Proof.
  intros H. unfold out, bind at 1 in H. destruct (h_nodes h !! d) as [nd|] eqn:Hd.
  - exists nd. split; [done|]. unfold out, bind at 1. by rewrite (handle_eq d nd) in H.
  - unfold with_handle, bind at 1, getM, lift, get_node in H. by rewrite Hd in H.
Qed.

Lemma colon_free_dec s : forallb (fun c => negb (N.eqb c 58)) s = true -> colon_free s.
Proof. intros H Hin. rewrite forallb_forall in H. specialize (H _ Hin). by rewrite N.eqb_refl in H. Qed.

Definition single (o : op) : bool :=
  match o with
  | OCreateElement _ _ | OCreateElementNs _ _ _ | OCreateAttribute _ _ | OCreateAttributeNs _ _ _ | OCreateText _ _ | OCreateCData _ _ | OCreateComment _ _
  | OCreatePI _ _ _ | OCreateFragment _ | OCreateEntityReference _ _ | OCreateNotation _ _ _ _ | OCreateEntity _ _ _ _ | OCreateInternalEntity _ _ _ => true
  | _ => false
  end.
Lemma has_doc h d : (match h_nodes h !! d with Some n => type_eqb NDocument (n_type n) | None => false end) = true -> node_type_of h d = Ok NDocument.
Proof. destruct (h_nodes h !! d) as [n|] eqn:Hd; [|done]. intros Ht. apply node_type_ok. exists n. split; [done|]. by destruct (n_type n). Qed.
Lemma single_makes E h h' o i : typed_op h o = true -> single o = true -> exec E o h = (h', Ok (Some i)) ->
  exists d t nm v x, node_type_of h d = Ok NDocument /\ makes d o t nm v x.
Proof.
  intros Ht Hs H. destruct o; try done; cbn [typed_op] in Ht; apply has_doc in Ht; exists d; cbn [exec] in H;
    unfold create_element, create_element_ns, create_attribute, create_attribute_ns, create_text_node, create_cdata_section, create_comment,
      create_processing_instruction, create_document_fragment, create_entity_reference, create_notation, create_entity, create_internal_entity in H;
    apply handle_out in H as (nd & _ & H); unfold out, bind, lift in H;
    try (destruct (name_from_str name) as [nm| | |] eqn:Hn; try done; apply plain_name_ok in Hn);
    try (destruct (name_new_ns uri qname) as [nm| | |] eqn:Hn; try done; apply qualified_name_ok in Hn);
    try (do 4 eexists; split; [done|by econstructor]).
  destruct (str_eqb (to_ascii_lowercase target) XML_PI_RESERVED) eqn:Hx; [done|].
  destruct (name_from_str target) as [nm| | |] eqn:Hn; try done. apply plain_name_ok in Hn. do 4 eexists. split; [done|]. econstructor; [done|].
  intros Hb%xml_target_iff. congruence.
Qed.
Definition factory (o : op) : bool :=
  match o with OCreateDocument _ _ _ _ | OCreateDocumentType _ _ _ | OCreateAttributeWith _ _ _ => true | _ => single o end.
Lemma special_free : colon_free (lit "#document") /\ colon_free (lit "#text") /\ colon_free (lit "#cdata-section") /\ colon_free (lit "#comment") /\ colon_free (lit "#document-fragment").
Proof. split_and!; by apply colon_free_dec. Qed.

Lemma document_name u q dt o h h1 d : create_document_with_options u (Some q) dt o h = (h1, Ok d) -> exists nm, root_name u (Some q) nm.
Proof.
  intros H. unfold create_document_with_options in H. unfold bind at 1 in H.
  destruct (match dt with Some t => with_handle t (ret tt) | None => ret tt end h) as [h0 [[]| | |]]; try done. rewrite bind_allocM in H. unfold bind at 1 in H.
  assert (Hd0 : h_nodes (allocd (new_document dt o) h0) !! h_next h0 = Some (new_document dt o)) by (cbn; by rewrite lookup_insert).
  destruct u as [u|]; unfold create_element, create_element_ns, bind at 1 in H; rewrite (handle_eq _ _ _ _ Hd0) in H; unfold bind at 1, lift in H.
  - destruct (name_new_ns u q) as [nm| | |] eqn:Hq; try done. exists nm. apply rn_qualified. by apply qualified_name_ok.
  - destruct (name_from_str q) as [nm| | |] eqn:Hq; try done. exists nm. apply rn_plain. by apply plain_name_ok.
Qed.
Lemma made_now E h h' o i : reachable h -> typed_op h o = true -> factory o = true -> exec E o h = (h', Ok (Some i)) ->
  reads_as_made h' i o /\ node_value h' i = Ok (first_value o).
Proof.
  intros Hr Ht Hf H. destruct special_free as (Sd & St & Sc & Sm & Sf).
  destruct (single o) eqn:Hs.
  - destruct (single_makes E h h' o i Ht Hs H) as (d & t & nm & v & x & Hd & Hm). destruct (C49_creates E h d o t nm v x Hr Hd Hm) as (h1 & i1 & H1 & _ & Hn & _).
    rewrite H in H1. injection H1 as <- <-.
    unfold node_value. rewrite (get_node_some _ _ _ Hn). cbn [rbind n_value].
    destruct Hm; cbn [reads_as_made first_value]; unfold ids_of_entity, node_type_of, specified, not_public_id, not_system_id, ent_public_id, ent_system_id, ent_notation_name;
      rewrite ?(get_node_some _ _ _ Hn); cbn [rbind n_type n_ext]; split_and!; try done;
      (eapply carries_plain; by eauto) || (eapply carries_qualified; by eauto) || (eapply carries_special_name; by eauto).
  - destruct o; try done.
    + cbn [exec] in H. unfold out, bind in H. destruct (create_document_with_options uri qname dt o h) as [h1 [d| | |]] eqn:Hc; try done. injection H as <- <-.
      assert (Hdt : forall t, dt = Some t -> node_type_of h t = Ok NDocumentType).
      { intros t ->. cbn in Ht. destruct (h_nodes h !! t) as [n|] eqn:Hn; [|done]. apply node_type_ok. exists n. split; [done|]. by destruct (n_type n). }
      assert (G : exists cs, h_nodes h1 !! d = Some (mkNode NDocument (special_name (lit "#document")) None None None cs (XDocument None dt [] o))).
      { destruct qname as [q|].
        - destruct (document_name _ _ _ _ _ _ _ Hc) as (nm & Hrn).
          destruct (C48_named h uri (Some q) dt o nm Hr Hdt Hrn) as (h2 & d2 & e & H2 & _ & _ & _ & Hn & _). rewrite Hc in H2. injection H2 as <- <-. eauto.
        - destruct uri as [u|].
          + destruct (C48_fails h dt o Hr Hdt) as (F1 & _). destruct (F1 u) as (h2 & H2 & _). congruence.
          + destruct (C48_empty h dt o Hr Hdt) as (h2 & d2 & H2 & _ & Hn & _). rewrite Hc in H2. injection H2 as <- <-. eauto. }
      destruct G as (cs & Hn). cbn [reads_as_made first_value]. unfold node_value, node_type_of, doc_type, implementation. rewrite (get_node_some _ _ _ Hn). cbn [rbind n_type n_ext n_value].
      split_and!; try done. by eapply carries_special_name.
    + assert (exists nm, plain_name qname nm) as (nm & Hq).
      { cbn [exec] in H. unfold out, create_document_type, bind, lift in H. destruct (name_from_str qname) as [nm| | |] eqn:Hq; try done. exists nm. by apply plain_name_ok. }
      destruct (C49_document_type E h qname nm pub sys Hr Hq) as (h1 & i1 & H1 & _ & Hn & _). rewrite H in H1. injection H1 as <- <-.
      cbn [reads_as_made first_value]. unfold ids_of_doctype, node_value, node_type_of, dt_public_id, dt_system_id, dt_internal_subset, dt_entities, dt_notations.
      rewrite (get_node_some _ _ _ Hn). cbn [rbind n_type n_ext n_value]. split_and!; try done. by eapply carries_plain.
    + cbn [typed_op] in Ht. apply has_doc in Ht.
      assert (exists nm, plain_name name nm) as (nm & Hq).
      { cbn [exec] in H. unfold create_attribute_with in H. apply handle_out in H as (nd & _ & H). unfold out, bind, lift in H. destruct (name_from_str name) as [nm| | |] eqn:Hq; try done. exists nm. by apply plain_name_ok. }
      destruct (C49_attribute_with E h d name nm value Hr Ht Hq) as (h0 & h1 & t & i1 & H1 & _ & _ & Hn & _). rewrite H in H1. injection H1 as <- <-.
      cbn [reads_as_made first_value]. unfold node_value, node_type_of, specified. rewrite (get_node_some _ _ _ Hn). cbn [rbind n_type n_ext n_value].
      split_and!; try done. by eapply carries_plain.
Qed.

(** The calls that make one node from their arguments: the document's factories, create_document(_type) and the extension's. *)
Theorem C69_made : forall E h h' h2 o i, wf_env E -> reachable h -> typed_op h o = true -> exec E o h = (h', Ok (Some i)) ->
  factory o = true -> later h' h2 -> alive h2 i = true -> reads_as_made h2 i o.
Proof.
  intros E h h' h2 o i HE Hr Ht H Hf Hl Ha. destruct (made_now E h h' o i Hr Ht Hf H) as [Hm Hv].
  assert (Hr' : reachable h') by (eapply reach_step; [exact Hr|]; split; [done|]; by exists E, (Ok (Some i))).
  eapply same_reads; [|exact Hm]. apply C69_fixed; try done. unfold node_value in Hv. destruct (get_node h' i) as [n| | |] eqn:Hn; try done.
  apply get_node_ok in Hn. apply alive_true. eauto.
Qed.
Print Assumptions C69_made.
(** The value is the one given, until a call changes it. *)
Theorem C69_first_value : forall E h h' o i, reachable h -> typed_op h o = true -> exec E o h = (h', Ok (Some i)) -> factory o = true ->
  node_value h' i = Ok (first_value o) /\ pi_data h' i = Ok (first_value o) /\
  pi_length h' i = Ok match first_value o with Some s => blen s | None => 0%N end.
Proof.
  intros E h h' o i Hr Ht H Hf. destruct (made_now E h h' o i Hr Ht Hf H) as [_ Hv]. unfold pi_length, pi_data. by rewrite Hv.
Qed.
Print Assumptions C69_first_value.
(** A clone answers like its original. *)
Theorem C69_clone : forall h h' h2 deep i j, reachable h -> later h' h2 -> clone_node deep i h = (h', Ok j) -> (deep = true -> no_cycle_below h i) ->
  reachable h' -> alive h2 j = true -> same_made h i h2 j.
Proof.
  intros h h' h2 deep i j Hr Hl Hc Hcy Hr' Ha. assert (Hi : alive h i = true).
  { unfold clone_node, walk_fuel in Hc. cbn [clone_rec] in Hc. unfold bind at 1, getM, lift in Hc. apply alive_true. destruct (get_node h i) as [n| | |] eqn:Hn; try done. apply get_node_ok in Hn. eauto. }
  assert (G : exists n n', h_nodes h !! i = Some n /\ h_nodes h' !! j = Some n' /\ looks_like n n').
  { destruct deep.
    - destruct (C37_deep h i Hr Hi (Hcy eq_refl)) as (h1 & j1 & t & t' & Hc' & Ht & Ht' & Hcp & _). rewrite Hc in Hc'. injection Hc' as <- <-.
      inversion Hcp as [i1 j1 ts ts' n n' Hni Hnj Hlk _ _]; subst. inversion Ht; subst. inversion Ht'; subst. eauto 10.
    - destruct (C37_shallow h i Hr Hi) as (h1 & j1 & n & n' & Hc' & Hni & Hnj & Hlk & _). rewrite Hc in Hc'. injection Hc' as <- <-. eauto 10. }
  destruct G as (n & n' & Hni & Hnj & (L1 & L2 & L3 & L4 & L5)). apply alive_true in Ha as (n2 & Hn2).
  destruct (C24_identity h' h2 j n' n2 Hr' Hl Hnj Hn2) as (K1 & K2 & _). pose proof (later_fixed h' h2 j n' n2 Hr' Hl Hnj Hn2) as K3.
  eapply same_made_intro; [done|done|congruence|congruence|]. by rewrite K3, L5.
Qed.
Print Assumptions C69_clone.

(** ** Answers computed from the node *)
Theorem C69_supported : forall h i f v b, is_supported h i f v = Ok b -> (b = true <-> (f = lit "Core" \/ f = lit "XML") /\ (v = lit "1.0" \/ v = lit "2.0")).
Proof. intros h i f v b H. unfold is_supported in H. destruct (get_node h i); try done. cbn in H. injection H as <-. apply C50_features. Qed.
Print Assumptions C69_supported.
Theorem C69_has_attributes : forall h i l, attributes h i = Ok l -> exists b, has_attributes h i = Ok b /\ (b = true <-> exists k a, In (k, a) l).
Proof.
  intros h i l H. unfold has_attributes. rewrite H. eexists. split; [done|]. destruct l as [|[k a] l]; cbn; split; try done.
  - by intros (k & a & []).
  - intros _. exists k, a. by left.
Qed.
Print Assumptions C69_has_attributes.
Theorem C69_names : forall h i s u p l, tag_name h i = Ok s -> namespace_uri h i = Ok u -> Access.prefix h i = Ok p -> local_name h i = Ok l ->
  node_name h i = Ok (mkName u p l) /\ s = match p with Some x => x ++ lit ":" ++ l | None => l end /\ pi_target h i = Ok s.
Proof.
  intros h i s u p l. unfold tag_name, namespace_uri, Access.prefix, local_name, pi_target. destruct (node_name h i) as [[u' p' l']| | |]; try done. cbn.
  intros [= <-] [= ->] [= ->] [= ->]. split_and!; [done| |done]. unfold name_to_string. cbn. by destruct p.
Qed.
Print Assumptions C69_names.

(** ** Example: every factory, then a history that changes whatever can be changed *)
Definition ex_get_ops : list op :=
  [OCreateDocumentType (lit "t") (Some (lit "pub")) (Some (lit "sys"));
   OCreateDocument None None (Some 0) options_new;
   OCreateElementNs 1 (lit "urn:a") (lit "p:e");
   OCreatePI 1 (lit "go") (Some (lit "now"));
   OCreateEntity 1 (lit "ent") (Some (lit "ep")) (Some (lit "es"));
   OCreateNotation 1 (lit "nota") None (Some (lit "ns"));
   OCreateAttributeWith 1 (lit "q:a") (lit "v")].
Definition ex_get : heap := default empty_heap (run env0 ex_get_ops empty_heap).
Definition ex_get_more : list op :=
  [OAppendChild 1 2; OSetAttributeNode 2 7; OSetNodeValue 3 (lit "later"); OAppendChild 2 3; OSetXmlDecl 1 (mkDecl V11 None None); OSetNodeValue 4 (lit "x");
   OAttrUnsetValue 7; OUnsetNodeValue 5; OClone true 2].
Definition ex_get2 : heap := default empty_heap (run env0 ex_get_more ex_get).
Example C69_example : reachable ex_get /\ later ex_get ex_get2 /\
  reads_as_made ex_get2 0 (OCreateDocumentType (lit "t") (Some (lit "pub")) (Some (lit "sys"))) /\
  reads_as_made ex_get2 1 (OCreateDocument None None (Some 0) options_new) /\
  tag_name ex_get2 2 = Ok (lit "p:e") /\ Access.prefix ex_get2 2 = Ok (Some (lit "p")) /\ local_name ex_get2 2 = Ok (lit "e") /\
  pi_target ex_get2 3 = Ok (lit "go") /\ pi_data ex_get2 3 = Ok (Some (lit "later")) /\ pi_length ex_get2 3 = Ok 5%N /\
  ent_system_id ex_get2 4 = Ok (Some (lit "es")) /\ not_system_id ex_get2 5 = Ok (Some (lit "ns")) /\
  local_name ex_get2 7 = Ok (lit "a") /\ has_attributes ex_get2 2 = Ok true /\ has_attributes ex_get 2 = Ok false /\ same_made ex_get2 2 ex_get2 9.
Proof.
  split; [apply (run0_reachable ex_get_ops); by vm_compute|]. split; [apply (run_later ex_get_more); by vm_compute|].
  split; [|split].
  - split; [by vm_compute|]. split; [|by vm_compute]. split; [by vm_compute|]. split; [by vm_compute|]. split; [by vm_compute|]. left. split; [by apply colon_free_dec|by vm_compute].
  - split; [by vm_compute|]. split; [|by vm_compute]. split; [|by apply colon_free_dec].
    split; [by vm_compute|]. split; [by vm_compute|]. split; [by vm_compute|]. left. split; [by apply colon_free_dec|by vm_compute].
  - by vm_compute.
Qed.
