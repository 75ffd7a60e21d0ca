(** * C08-C15: names, options, XML declarations, unquoting *)
From Verif Require Import History SpecName ProofText ProofAttr ProofName.
From Coq Require Import Lia.

(** ** C08 *)
Theorem C08_accepts : forall s n,
  name_from_str s = Ok n <->
  (one_part s /\ good_part s /\ n = mkName None None s)
  \/ (exists p l, two_parts s p l /\ good_part p /\ good_part l /\ n = mkName None (Some p) l).
Proof.
  intros s n. split.
  - intros H. destruct (name_from_str_spec s) as [(n' & Hn & Hs)|[[Hn _]|[[Hn _]|[Hn _]]]]; try congruence.
    rewrite H in Hn. by injection Hn as <-.
  - intros H. assert (A : accepted s) by (destruct H as [(? & ? & _)|(p & l & ? & ? & ? & _)]; [by left|right; eauto]).
    destruct (name_from_str_spec s) as [(n' & -> & Hs)|[[_ Hn]|[[_ Hn]|[_ Hn]]]].
    + f_equal. destruct Hs as [(H1 & _ & ->)|(p & l & H1 & _ & _ & ->)], H as [(H2 & _ & ->)|(p' & l' & H2 & _ & _ & ->)].
      * done.
      * by destruct (one_not_two _ _ _ H1 H2).
      * by destruct (one_not_two _ _ _ H2 H1).
      * by destruct (two_parts_fun _ _ _ _ _ H1 H2) as [-> ->].
    + by destruct (accepted_not_syntax s A).
    + by destruct (accepted_not_char s A).
    + by destruct (accepted_not_wide s A).
Qed.
Print Assumptions C08_accepts.
(** Accepted parts are the NCNames of the XML grammar whose first character is ASCII. *)
Theorem C08_parts_are_ncnames : forall x, colon_free x -> (good_part x <-> ncname x /\ ascii_first x).
Proof.
  intros x Hx. unfold good_part, ncname, ascii_first. split.
  - intros (c & t & -> & H1 & H2 & H3). split; [by exists c, t|]. intros c' t' H. by injection H as <- <-.
  - intros [(c & t & -> & H1 & H2 & _) H3]. exists c, t. eauto.
Qed.
Print Assumptions C08_parts_are_ncnames.
Theorem C08_syntax_error : forall s, name_from_str s = Err Syntax <-> syntax_fault s.
Proof.
  intros s. split.
  - intros H. destruct (name_from_str_spec s) as [(n' & Hn & Hs)|[[Hn ?]|[[Hn _]|[Hn _]]]]; congruence || done.
  - intros H. destruct (name_from_str_spec s) as [(n' & -> & Hs)|[[-> _]|[[_ Hn]|[_ Hn]]]]; [|done|..].
    + exfalso. eapply accepted_not_syntax; [|exact H]. destruct Hs as [(? & ? & _)|(p & l & ? & ? & ? & _)]; [by left|right; eauto].
    + by destruct (syntax_not_char s).
    + by destruct (syntax_not_wide s).
Qed.
Print Assumptions C08_syntax_error.
Theorem C08_character_error : forall s, name_from_str s = Err InvalidCharacter <-> character_fault s.
Proof.
  intros s. split.
  - intros H. destruct (name_from_str_spec s) as [(n' & Hn & Hs)|[[Hn ?]|[[Hn ?]|[Hn _]]]]; congruence || done.
  - intros H. destruct (name_from_str_spec s) as [(n' & -> & Hs)|[[_ Hn]|[[-> _]|[_ Hn]]]]; [|exfalso|done|exfalso].
    + exfalso. eapply accepted_not_char; [|exact H]. destruct Hs as [(? & ? & _)|(p & l & ? & ? & ? & _)]; [by left|right; eauto].
    + by eapply syntax_not_char.
    + by eapply char_not_wide.
Qed.
Print Assumptions C08_character_error.
Example C08_example : name_from_str (lit "xs:element-1") = Ok (mkName None (Some (lit "xs")) (lit "element-1"))
  /\ name_from_str (lit "a:b:c") = Err Syntax /\ name_from_str (lit ":1") = Err InvalidCharacter
  /\ name_from_str (lit ":a") = Err Syntax /\ name_from_str (lit "a b") = Err InvalidCharacter
  /\ name_from_str (97%N :: [233%N]) = Ok (mkName None None (97%N :: [233%N])).
Proof. by vm_compute. Qed.

(** ** C09 *)
Theorem C09_print_parse : forall s n, name_from_str s = Ok n -> name_to_string n = s.
Proof. intros s n H. by apply name_from_str_print. Qed.
Print Assumptions C09_print_parse.
Theorem C09_reparse : forall s n, name_from_str s = Ok n -> name_from_str (name_to_string n) = Ok n.
Proof. intros s n H. by rewrite (C09_print_parse _ _ H). Qed.
Print Assumptions C09_reparse.
Theorem C09_new_ns : forall u s n, name_new_ns u s = Ok n -> name_to_string n = s /\ nm_ns n = Some u.
Proof. exact name_new_ns_print. Qed.
Print Assumptions C09_new_ns.
Theorem C09_print_injective : forall s1 s2 n1 n2,
  name_from_str s1 = Ok n1 -> name_from_str s2 = Ok n2 -> name_to_string n1 = name_to_string n2 -> n1 = n2.
Proof. intros s1 s2 n1 n2 H1 H2 H. rewrite (C09_print_parse _ _ H1), (C09_print_parse _ _ H2) in H. congruence. Qed.
Print Assumptions C09_print_injective.
Example C09_example : name_new_ns (lit "urn:x") (lit "p:q") = Ok (mkName (Some (lit "urn:x")) (Some (lit "p")) (lit "q"))
  /\ name_to_string (mkName (Some (lit "urn:x")) (Some (lit "p")) (lit "q")) = lit "p:q".
Proof. by vm_compute. Qed.

(** ** C10 *)
Theorem C10_panics_iff : forall s, (exists p, name_from_str s = Panic p) <-> wide_fault s.
Proof.
  intros s. split.
  - intros [p H]. destruct (name_from_str_spec s) as [(n' & Hn & Hs)|[[Hn ?]|[[Hn ?]|[Hn ?]]]]; congruence || done.
  - intros H. destruct (name_from_str_spec s) as [(n' & -> & Hs)|[[_ Hn]|[[_ Hn]|[-> _]]]]; [exfalso|exfalso|exfalso|eauto].
    + eapply accepted_not_wide; [|exact H]. destruct Hs as [(? & ? & _)|(p & l & ? & ? & ? & _)]; [by left|right; eauto].
    + by eapply syntax_not_wide.
    + by eapply char_not_wide.
Qed.
Print Assumptions C10_panics_iff.
Theorem C10_returns : forall s, ~ wide_fault s -> (exists n, name_from_str s = Ok n) \/ (exists e, name_from_str s = Err e).
Proof.
  intros s H. destruct (name_from_str_spec s) as [(n' & -> & Hs)|[[-> Hn]|[[-> Hn]|[_ ?]]]]; [left|right|right|done]; eauto.
Qed.
Print Assumptions C10_returns.
(** The panic goes through to every call that takes a name, and nothing has changed by then. *)
Theorem C10_calls_panic : forall E h d e nd ne s u v t o,
  h_nodes h !! d = Some nd -> h_nodes h !! e = Some ne -> n_type ne = NElement -> wide_fault s ->
  create_element d s h = (h, Panic PSlice) /\ create_element_ns d u s h = (h, Panic PSlice) /\
  create_attribute d s h = (h, Panic PSlice) /\ create_attribute_with d s v h = (h, Panic PSlice) /\
  create_attribute_ns d u s h = (h, Panic PSlice) /\ create_entity_reference d s h = (h, Panic PSlice) /\
  create_processing_instruction d s t h = (h, Panic PSlice) /\ create_document_type s t t h = (h, Panic PSlice) /\
  set_attribute E e s v h = (h, Panic PSlice) /\ set_attribute_ns E e u s v h = (h, Panic PSlice) /\
  get_attribute E h e s = Panic PSlice /\ has_attribute h e s = Panic PSlice /\
  remove_attribute E e s h = (h, Panic PSlice) /\ create_notation d s t t h = (h, Panic PSlice) /\
  create_entity d s t t h = (h, Panic PSlice) /\ create_internal_entity d s v h = (h, Panic PSlice) /\
  (exists h', create_document_with_options None (Some s) None o h = (h', Panic PSlice)).
Proof.
  intros E h d e nd ne s u v t o Hd He Ht Hw. pose proof (wide_not_xml s Hw) as Hx.
  assert (HP : name_from_str s = Panic PSlice).
  { destruct (name_from_str_spec s) as [(n' & -> & Hs)|[[_ Hn]|[[_ Hn]|[-> _]]]]; [exfalso|exfalso|exfalso|done].
    + eapply accepted_not_wide; [|exact Hw]. destruct Hs as [(? & ? & _)|(p & l & ? & ? & ? & _)]; [by left|right; eauto].
    + by eapply syntax_not_wide.
    + by eapply char_not_wide. }
  assert (HPn : name_new_ns u s = Panic PSlice) by (unfold name_new_ns; by rewrite HP).
  assert (Hg : getM d h = (h, Ok nd)) by (unfold getM, lift, get_node; by rewrite Hd).
  assert (Hge : get_node h e = Ok ne) by (unfold get_node; by rewrite He).
  assert (Hte : is_type NElement ne = true) by (unfold is_type; by rewrite Ht).
  assert (Hga : get_attribute_node E h e s = Panic PSlice) by (unfold get_attribute_node; by rewrite Hge; cbn [rbind]; rewrite Hte, HP).
  repeat apply conj;
    unfold create_element, create_element_ns, create_attribute, create_attribute_with, create_attribute_ns,
    create_entity_reference, create_processing_instruction, create_document_type, set_attribute, set_attribute_ns,
    get_attribute, has_attribute, remove_attribute, create_notation, create_entity,
    create_internal_entity, with_handle, XML_PI_RESERVED; try (unfold bind; rewrite ?Hg, ?Hx; unfold lift; by rewrite ?HP, ?HPn, ?Hga).
  - rewrite Hge. cbn [rbind]. by rewrite Hte, HP.
  - unfold create_document_with_options, create_element, with_handle, bind, allocM, getM, lift, get_node, ret. cbn.
    rewrite lookup_insert. cbn. rewrite HP. eauto.
Qed.
Print Assumptions C10_calls_panic.
Example C10_example : wide_fault (233%N :: lit "cole") /\ name_from_str (233%N :: lit "cole") = Panic PSlice
  /\ wide_fault (lit "p:" ++ 233%N :: lit "cole").
Proof.
  split; [|split; [by vm_compute|]].
  - left. split; [intros H; vm_compute in H; intuition discriminate|]. exists 233%N, (lit "cole"). split; [done|].
    split; [|done]. apply name_start_spec. by vm_compute.
  - right. exists (lit "p"), (233%N :: lit "cole"). split; [split; [done|]; split; intros H; vm_compute in H; intuition discriminate|].
    left. exists 233%N, (lit "cole"). split; [done|]. split; [|done]. apply name_start_spec. by vm_compute.
Qed.

(** ** C11 *)
Theorem C11_new_ns_ok : forall u q n,
  name_new_ns u q = Ok n <->
  exists m, name_from_str q = Ok m /\ u <> [] /\ reserved_ok u m /\ n = mkName (Some u) (nm_prefix m) (nm_local m).
Proof.
  intros u q n. unfold name_new_ns. destruct (name_from_str q) as [m|e|p|] eqn:Hq; cbn [rbind].
  - destruct (check_uri_spec u (nm_prefix m) (nm_local m)) as (H1 & H2 & H3).
    change (reserved_ok u (mkName (Some u) (nm_prefix m) (nm_local m))) with (reserved_ok u m) in *.
    split.
    + intros H. exists m. split; [done|].
      assert (Hu : u <> []) by (intros Hu; rewrite (H2 Hu) in H; discriminate). split; [done|].
      assert (Hr : reserved_ok u m).
      { destruct (decide (check_namespace_uri u (nm_prefix m) (nm_local m) = Err Namespace)) as [Hx|Hx].
        - rewrite Hx in H. discriminate.
        - destruct (classic_reserved u m) as [Hr|Hr]; [done|]. by rewrite (H3 Hu Hr) in Hx. }
      split; [done|]. rewrite H1 in H by done. by injection H as <-.
    + intros (m' & Hm & Hu & Hr & ->). injection Hm as <-. by rewrite H1.
  - split; [done|]. by intros (m & ? & _).
  - split; [done|]. by intros (m & ? & _).
  - split; [done|]. by intros (m & ? & _).
Qed.
Print Assumptions C11_new_ns_ok.
Theorem C11_errors : forall u q m, name_from_str q = Ok m ->
  (u = [] -> name_new_ns u q = Err Syntax) /\
  (u <> [] -> ~ reserved_ok u m -> name_new_ns u q = Err Namespace).
Proof.
  intros u q m Hq. unfold name_new_ns. rewrite Hq. cbn [rbind].
  destruct (check_uri_spec u (nm_prefix m) (nm_local m)) as (H1 & H2 & H3).
  split; [intros Hu; by rewrite H2|]. intros Hu Hr. by rewrite H3.
Qed.
Print Assumptions C11_errors.
Theorem C11_bad_name : forall u q,
  (forall e, name_from_str q = Err e -> name_new_ns u q = Err e) /\
  (forall p, name_from_str q = Panic p -> name_new_ns u q = Panic p).
Proof. intros u q. unfold name_new_ns. split; intros x ->; done. Qed.
Print Assumptions C11_bad_name.
Example C11_example : name_new_ns (lit "urn:x") (lit "xml:lang") = Err Namespace
  /\ name_new_ns xml_uri (lit "xml:lang") = Ok (mkName (Some xml_uri) (Some (lit "xml")) (lit "lang"))
  /\ name_new_ns (lit "urn:x") (lit "p:xmlns") = Err Namespace /\ name_new_ns [] (lit "a") = Err Syntax
  /\ reserved_ok (lit "urn:x") (mkName None (Some (lit "p")) (lit "a")).
Proof. repeat split; try (by vm_compute); intros [H|H]; discriminate. Qed.

(** ** C12 *)
Theorem C12_namespace_attribute : forall n, is_namespace_attribute n = true <->
  nm_ns n = Some xmlns_uri /\ (nm_prefix n = None /\ nm_local n = lit "xmlns" \/ nm_prefix n = Some (lit "xmlns")).
Proof.
  intros n. unfold is_namespace_attribute, XMLNS_NS_URI, XMLNS_NS_ATTRIBUTE.
  rewrite andb_true_iff, orb_true_iff, andb_true_iff, !ostr_eqb_true, str_eqb_true. unfold xmlns_uri. tauto.
Qed.
Print Assumptions C12_namespace_attribute.
Theorem C12_for_namespace : forall p,
  (p <> Some [] -> exists n, name_for_namespace p = Ok n /\ is_namespace_attribute n = true
     /\ name_to_string n = match p with None => lit "xmlns" | Some x => lit "xmlns:" ++ x end) /\
  (name_for_namespace (Some []) = Panic PUnwrap).
Proof.
  intros p. split; [|done]. intros Hp. destruct p as [[|c p]|]; [done|..]; eexists; (split; [done|]); (split; [apply C12_namespace_attribute; cbn; by auto|reflexivity]).
Qed.
Print Assumptions C12_for_namespace.
Theorem C12_id_attribute : forall n,
  (is_id_attribute n false = true <-> nm_local n = lit "id" /\ (nm_ns n = Some xml_uri \/ nm_prefix n = Some (lit "xml"))) /\
  (is_id_attribute n true = true <-> nm_local n = lit "id") /\
  (is_id_attribute n false = true -> is_id_attribute n true = true).
Proof.
  intros n. unfold is_id_attribute, XML_NS_URI, XML_NS_ATTRIBUTE, XML_NS_ATTR_ID.
  rewrite andb_true_iff, orb_true_iff, !ostr_eqb_true, str_eqb_true. unfold xml_uri. tauto.
Qed.
Print Assumptions C12_id_attribute.
Example C12_example : is_namespace_attribute (mkName (Some xmlns_uri) (Some (lit "xmlns")) (lit "p")) = true
  /\ is_namespace_attribute (mkName None (Some (lit "xmlns")) (lit "p")) = false
  /\ is_id_attribute (mkName None None (lit "id")) false = false /\ is_id_attribute name_for_xml_id false = true.
Proof. by vm_compute. Qed.

(** ** C13 *)
Theorem C13_set : forall o,
  (has_assume_ids (set_assume_ids o) = true /\ has_parse_entities (set_assume_ids o) = has_parse_entities o
     /\ has_add_namespaces (set_assume_ids o) = has_add_namespaces o) /\
  (has_assume_ids (set_parse_entities o) = has_assume_ids o /\ has_parse_entities (set_parse_entities o) = true
     /\ has_add_namespaces (set_parse_entities o) = has_add_namespaces o) /\
  (has_assume_ids (set_add_namespaces o) = has_assume_ids o /\ has_parse_entities (set_add_namespaces o) = has_parse_entities o
     /\ has_add_namespaces (set_add_namespaces o) = true).
Proof.
  intros o. rewrite !flag0, !flag1, !flag2. unfold set_assume_ids, set_parse_entities, set_add_namespaces.
  rewrite !N.lor_spec. cbn. rewrite ?orb_false_r, ?orb_true_r. done.
Qed.
Print Assumptions C13_set.
Theorem C13_new : has_none options_new = true /\ has_assume_ids options_new = false
  /\ has_parse_entities options_new = false /\ has_add_namespaces options_new = false.
Proof. done. Qed.
Print Assumptions C13_new.
Theorem C13_idempotent_commute : forall o,
  set_assume_ids (set_assume_ids o) = set_assume_ids o /\
  set_parse_entities (set_parse_entities o) = set_parse_entities o /\
  set_add_namespaces (set_add_namespaces o) = set_add_namespaces o /\
  set_assume_ids (set_parse_entities o) = set_parse_entities (set_assume_ids o) /\
  set_assume_ids (set_add_namespaces o) = set_add_namespaces (set_assume_ids o) /\
  set_parse_entities (set_add_namespaces o) = set_add_namespaces (set_parse_entities o).
Proof.
  intros o. unfold set_assume_ids, set_parse_entities, set_add_namespaces.
  rewrite <- !N.lor_assoc, !N.lor_diag. repeat split; f_equal; apply N.lor_comm.
Qed.
Print Assumptions C13_idempotent_commute.
Theorem C13_none : forall o,
  has_none (set_assume_ids o) = false /\ has_none (set_parse_entities o) = false /\ has_none (set_add_namespaces o) = false
  /\ (has_none o = true -> has_assume_ids o = false /\ has_parse_entities o = false /\ has_add_namespaces o = false).
Proof.
  intros o. unfold has_none, set_assume_ids, set_parse_entities, set_add_namespaces.
  assert (G : forall k, (1 <= k)%N -> (N.lor o k =? 0)%N = false).
  { intros k Hk. apply N.eqb_neq. intros H. apply N.lor_eq_0_iff in H. lia. }
  repeat split; try (apply G; unfold FLAG_ASSUME_IDS, FLAG_PARSE_ENTITIES, FLAG_ADD_NAMESPACES; lia);
    match goal with H : (o =? 0)%N = true |- _ => apply N.eqb_eq in H; by subst end.
Qed.
Print Assumptions C13_none.
Theorem C13_or_and : forall a b,
  has_assume_ids (options_or a b) = has_assume_ids a || has_assume_ids b /\
  has_parse_entities (options_or a b) = has_parse_entities a || has_parse_entities b /\
  has_add_namespaces (options_or a b) = has_add_namespaces a || has_add_namespaces b /\
  has_assume_ids (options_and a b) = has_assume_ids a && has_assume_ids b /\
  has_parse_entities (options_and a b) = has_parse_entities a && has_parse_entities b /\
  has_add_namespaces (options_and a b) = has_add_namespaces a && has_add_namespaces b.
Proof. intros a b. unfold options_or, options_and. rewrite !flag0, !flag1, !flag2, !N.lor_spec, !N.land_spec. done. Qed.
Print Assumptions C13_or_and.
Theorem C13_display : forall o,
  options_to_string o = options_text (has_assume_ids o) (has_parse_entities o) (has_add_namespaces o).
Proof.
  intros o. unfold options_to_string.
  by destruct (has_assume_ids o), (has_parse_entities o), (has_add_namespaces o).
Qed.
Print Assumptions C13_display.
Example C13_example : options_to_string (set_add_namespaces (set_assume_ids options_new)) = lit "ProcessingOptions {AssumeIDs, AddNamespaces}".
Proof. by vm_compute. Qed.

(** ** C14 *)
Theorem C14_accepts : forall v enc sa,
  (match enc with Some e => encoding_name e | None => True end -> xml_decl_new v enc sa = Ok (mkDecl v enc sa)) /\
  (match enc with Some e => ~ encoding_name e | None => False end -> xml_decl_new v enc sa = Panic PExplicit).
Proof.
  intros v [e|] sa; cbn; [|done]. destruct (is_encoding_spec e) as [H1 H2]. split; intros H.
  - by rewrite (H1 H).
  - by rewrite (H2 H).
Qed.
Print Assumptions C14_accepts.
Definition valid_decl (d : xml_decl) : Prop := match xd_encoding d with Some e => encoding_name e | None => True end.
Theorem C14_print_injective : forall d1 d2, valid_decl d1 -> valid_decl d2 ->
  xml_decl_to_string d1 = xml_decl_to_string d2 -> d1 = d2.
Proof. exact decl_inj. Qed.
Print Assumptions C14_print_injective.
Theorem C14_version : forall v s, version_from_str s = Some v <-> s = version_to_string v.
Proof.
  intros v s. unfold version_from_str, version_to_string.
  destruct (str_eqb s (lit "1.0")) eqn:H1; [apply str_eqb_true in H1|apply str_eqb_false in H1].
  - subst. split; [intros H; by injection H as <-|]. by destruct v.
  - destruct (str_eqb s (lit "1.1")) eqn:H2; [apply str_eqb_true in H2|apply str_eqb_false in H2].
    + subst. split; [intros H; by injection H as <-|]. by destruct v.
    + split; [done|]. by destruct v.
Qed.
Print Assumptions C14_version.
Example C14_example : xml_decl_new V10 (Some (lit "UTF-8")) (Some true) = Ok (mkDecl V10 (Some (lit "UTF-8")) (Some true))
  /\ xml_decl_to_string (mkDecl V10 (Some (lit "UTF-8")) (Some true)) = lit "<?xml version=""1.0"" encoding=""UTF-8"" standalone=""yes""?>"
  /\ xml_decl_new V10 (Some (lit "8UTF")) None = Panic PExplicit /\ xml_decl_new V10 (Some []) None = Panic PExplicit.
Proof. by vm_compute. Qed.

(** ** C15 *)
Definition is_quote (q : N) : Prop := q = 34%N \/ q = 39%N.
Theorem C15_quoted : forall q s, is_quote q -> unquote (q :: s ++ [q]) = Ok s.
Proof.
  intros q s Hq. unfold unquote, slice_inner. assert (Hl : last (q :: s ++ [q]) = Some q) by (rewrite app_comm_cons; apply last_snoc).
  unfold ends_with. rewrite Hl. cbn [starts_with tail].
  assert (Hin : match q :: s ++ [q] with _ :: _ :: _ => Ok (removelast (s ++ [q])) | _ => Panic PSlice end = Ok s).
  { rewrite removelast_snoc. by destruct s. }
  destruct Hq as [->| ->]; cbn; by rewrite removelast_snoc; destruct s.
Qed.
Print Assumptions C15_quoted.
Theorem C15_unquoted : forall s, (forall q t, s = q :: t -> ~ is_quote q) -> unquote s = Ok s.
Proof.
  intros [|c s] H; [done|]. unfold unquote, starts_with. specialize (H c s eq_refl). unfold is_quote in H.
  destruct (N.eqb_spec c C_QUOT) as [->|]; [tauto|]. destruct (N.eqb_spec c C_APOS) as [->|]; [tauto|]. done.
Qed.
Print Assumptions C15_unquoted.
Theorem C15_unbalanced : forall q s, is_quote q -> s <> [] -> (forall t, s <> t ++ [q]) -> unquote (q :: s) = Err InvalidCharacter.
Proof.
  intros q s Hq Hne Hs. unfold unquote.
  assert (He : ends_with q (q :: s) = false).
  { unfold ends_with. destruct (exists_last Hne) as (t & x & ->). rewrite app_comm_cons, last_snoc. apply N.eqb_neq.
    intros ->. by eapply Hs. }
  destruct Hq as [->| ->]; cbn [starts_with]; change 34%N with C_QUOT in *; change 39%N with C_APOS in *; rewrite ?He; cbn; done.
Qed.
Print Assumptions C15_unbalanced.
Theorem C15_single_quote_panics : forall q, is_quote q -> unquote [q] = Panic PSlice.
Proof. by intros q [->| ->]. Qed.
Print Assumptions C15_single_quote_panics.
(** The cases above are all there are. *)
Theorem C15_exhaustive : forall s,
  (forall q t, s = q :: t -> ~ is_quote q) \/
  exists q, is_quote q /\ (s = [q] \/ (exists t, s = q :: t ++ [q]) \/ exists t, s = q :: t /\ t <> [] /\ forall t', t <> t' ++ [q]).
Proof.
  intros [|c s]; [left; discriminate|].
  destruct (decide (c = 34%N \/ c = 39%N)) as [Hq|Hq]; [|left; intros q t H; injection H as <- <-; exact Hq].
  right. exists c. split; [exact Hq|]. destruct s as [|d s]; [by left|]. right.
  assert (Hne : d :: s <> []) by done. destruct (exists_last Hne) as (t & x & Ht). rewrite Ht.
  destruct (decide (x = c)) as [->|Hx]; [left; eauto|]. right. eexists. split; [done|]. split; [by destruct t|].
  intros t' H. apply app_inj_tail in H as [_ H]. congruence.
Qed.
Print Assumptions C15_exhaustive.
Example C15_example : unquote (lit """1.0""") = Ok (lit "1.0") /\ unquote (lit "'1.0'") = Ok (lit "1.0")
  /\ unquote (lit "'1.0""") = Err InvalidCharacter /\ unquote (lit "1.0'") = Ok (lit "1.0'").
Proof. by vm_compute. Qed.
