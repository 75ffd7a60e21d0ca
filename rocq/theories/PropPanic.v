(** * C68: the panics of the calls that change something *)
From Coq Require Import Lia.
From Verif Require Import SpecPanic ProofText ProofData ProofAttr ProofName ProofInv ProofSteps ProofOps ProofTree ProofInsert ProofElem ProofErr ProofWalk
  PropText PropName PropData PropTree PropInsert PropElem PropSplit PropNorm PropDrop PropAccess ProofPanic.

#[local] Opaque normalize_attribute_value.

Definition one_call (o : op) : bool := match o with OReadXml _ | ODrop _ => false | _ => true end.

Theorem C68_calls : forall E h o, wf_env E -> reachable h -> typed_op h o = true -> handles_live h o -> op_fits h o -> one_call o = true ->
  ((exists p, (exec E o h).2 = Panic p) <-> call_faulty E h o).
Proof.
  intros E h o HE Hr Ht Hl Hf Hone. pose proof (reachable_inv h Hr) as HI. change (panics (exec E o) h <-> call_faulty E h o).
  assert (L : forall i, In i (handles o) -> exists n, h_nodes h !! i = Some n) by (intros i Hi; apply alive_true; by apply Hl).
  assert (N : forall P : Prop, ~ P -> ~ call_faulty E h o -> P <-> call_faulty E h o) by tauto.
  assert (W : forall s P, (P <-> wide_fault s) -> (wide_fault s -> call_faulty E h o) -> (call_faulty E h o -> wide_fault s) -> P <-> call_faulty E h o) by (intros; tauto).
  destruct o as [u q t oo|q pb sy|evs|d nm|d u q|d nm|d nm v|d u q|d s|d s|d s|d tg s|d|d nm|d nm pb sy|d nm pb sy|d nm v|p c r|p c|p n o|p c|dp i|i|i v|i|i s|i off s|i off c|i off c s|i off|i v|i|e n v|e u q v|e a|e n|e u l|e a|d x|l];
    try done; cbn [exec handles typed_op] in *; rewrite ?panics_out; clear Hone.
  - destruct t as [t|].
    + destruct (L t (or_introl eq_refl)) as [nt Hnt]. rewrite Hnt in Ht. apply bool_decide_eq_true in Ht. rewrite create_document_panics; [|done|intros t' [= <-]; eauto].
      split; [intros (s & -> & Hs); by constructor|]. intros HF. inversion HF; subst. eauto.
    + rewrite create_document_panics; [|done|done]. split; [intros (s & -> & Hs); by constructor|]. intros HF. inversion HF; subst. eauto.
  - eapply W; [|intros; by constructor|intros HF; by inversion HF]. apply name_then. intros nm _. apply alloc_no_panic.
  - destruct (L d (or_introl eq_refl)) as [nd Hnd]. eapply W; [|intros; by constructor|intros HF; by inversion HF]. unfold create_element. rewrite (handle_then _ _ _ _ Hnd). apply name_then. intros k _. apply alloc_no_panic.
  - destruct (L d (or_introl eq_refl)) as [nd Hnd]. eapply W; [|intros; by constructor|intros HF; by inversion HF]. unfold create_element_ns. rewrite (handle_then _ _ _ _ Hnd). apply name_ns_then. intros k _. apply alloc_no_panic.
  - destruct (L d (or_introl eq_refl)) as [nd Hnd]. eapply W; [|intros; by constructor|intros HF; by inversion HF]. unfold create_attribute. rewrite (handle_then _ _ _ _ Hnd). apply name_then. intros k _. apply attr_no_panic.
  - destruct (L d (or_introl eq_refl)) as [nd Hnd]. eapply W; [|intros; by constructor|intros HF; by inversion HF]. unfold create_attribute_with. rewrite (handle_then _ _ _ _ Hnd). apply name_then. intros k _. apply attr_no_panic.
  - destruct (L d (or_introl eq_refl)) as [nd Hnd]. eapply W; [|intros; by constructor|intros HF; by inversion HF]. unfold create_attribute_ns. rewrite (handle_then _ _ _ _ Hnd). apply name_ns_then. intros k _. apply attr_no_panic.
  - destruct (L d (or_introl eq_refl)) as [nd Hnd]. apply N; [|intros HF; by inversion HF]. unfold create_text_node. rewrite (handle_then _ _ _ _ Hnd). apply alloc_no_panic.
  - destruct (L d (or_introl eq_refl)) as [nd Hnd]. apply N; [|intros HF; by inversion HF]. unfold create_cdata_section. rewrite (handle_then _ _ _ _ Hnd). apply alloc_no_panic.
  - destruct (L d (or_introl eq_refl)) as [nd Hnd]. apply N; [|intros HF; by inversion HF]. unfold create_comment. rewrite (handle_then _ _ _ _ Hnd). apply alloc_no_panic.
  - destruct (L d (or_introl eq_refl)) as [nd Hnd]. eapply W; [|intros; by constructor|intros HF; by inversion HF]. unfold create_processing_instruction. rewrite (handle_then _ _ _ _ Hnd).
    destruct (str_eqb (to_ascii_lowercase tg) XML_PI_RESERVED) eqn:Hx; [split; [by intros [q Hq]|intros Hw; by apply reserved_not_wide in Hx]|]. apply name_then. intros k _. apply alloc_no_panic.
  - destruct (L d (or_introl eq_refl)) as [nd Hnd]. apply N; [|intros HF; by inversion HF]. unfold create_document_fragment. rewrite (handle_then _ _ _ _ Hnd). apply alloc_no_panic.
  - destruct (L d (or_introl eq_refl)) as [nd Hnd]. eapply W; [|intros; by constructor|intros HF; by inversion HF]. unfold create_entity_reference. rewrite (handle_then _ _ _ _ Hnd). apply name_then. intros k _. apply alloc_no_panic.
  - destruct (L d (or_introl eq_refl)) as [nd Hnd]. eapply W; [|intros; by constructor|intros HF; by inversion HF]. unfold create_notation. rewrite (handle_then _ _ _ _ Hnd). apply name_then. intros k _. apply alloc_no_panic.
  - destruct (L d (or_introl eq_refl)) as [nd Hnd]. eapply W; [|intros; by constructor|intros HF; by inversion HF]. unfold create_entity. rewrite (handle_then _ _ _ _ Hnd). apply name_then. intros k _. apply alloc_no_panic.
  - destruct (L d (or_introl eq_refl)) as [nd Hnd]. eapply W; [|intros; by constructor|intros HF; by inversion HF]. unfold create_internal_entity. rewrite (handle_then _ _ _ _ Hnd). apply name_then. intros k _. apply alloc_no_panic.
  - assert (Hp : exists np, h_nodes h !! p = Some np) by (apply L; destruct r; by left). assert (Hc : exists nc, h_nodes h !! c = Some nc) by (apply L; destruct r; right; by left).
    destruct Hp as [np Hp], Hc as [nc Hc]. rewrite (insert_panics_iff h p c r np nc HI Hp Hc). split; [by constructor|]. intros HF. by inversion HF.
  - destruct (L p (or_introl eq_refl)) as [np Hp], (L c (or_intror (or_introl eq_refl))) as [nc Hc]. unfold append_child. rewrite (insert_panics_iff h p c None np nc HI Hp Hc). split; [by constructor|]. intros HF. by inversion HF.
  - destruct (L p (or_introl eq_refl)) as [np Hp], (L n (or_intror (or_introl eq_refl))) as [nc Hc], (L o (or_intror (or_intror (or_introl eq_refl)))) as [no Ho]. by apply (replace_child_panics E h p n o np nc no).
  - destruct (L p (or_introl eq_refl)) as [np Hp]. apply N; [|intros HF; by inversion HF]. by apply (remove_child_no_panic h p c np).
  - destruct (L i (or_introl eq_refl)) as [n Hn]. apply N; [|intros HF; by inversion HF]. unfold clone_node, panics. apply (clone_no_panic (walk_fuel h) dp i h); [by apply inv_closed|apply (inv_lt h HI)|apply alive_true; eauto].
  - destruct (L i (or_introl eq_refl)) as [n Hn]. apply N; [|intros HF; by inversion HF]. destruct (C38_returns h i (n_children n) Hr) as [h' H']; [apply child_nodes_ok; eauto|]. by eapply not_panics_ok.
  - destruct (L i (or_introl eq_refl)) as [n Hn]. apply N; [|intros HF; by inversion HF]. unfold set_node_value, panics. rewrite (modifyM_eq _ _ _ _ Hn). by intros [q Hq].
  - destruct (L i (or_introl eq_refl)) as [n Hn]. apply N; [|intros HF; by inversion HF]. unfold unset_node_value, panics. rewrite (modifyM_eq _ _ _ _ Hn). by intros [q Hq].
  - destruct (L i (or_introl eq_refl)) as [n Hn]. apply N; [|intros HF; by inversion HF]. unfold append_data, panics. destruct (is_nil s); [by intros [q Hq]|]. rewrite (modifyM_eq _ _ _ _ Hn). by intros [q Hq].
  - destruct (L i (or_introl eq_refl)) as [n Hn]. cbn in Hf. destruct s as [|x s].
    + apply N; [by intros [q Hq]|]. intros HF. inversion HF. done.
    + unfold insert_data. cbn [is_nil]. rewrite (replace_panics E h i n off 0 (x :: s) Hn Hf) by done. split; [by constructor|]. intros HF. by inversion HF.
  - destruct (L i (or_introl eq_refl)) as [n Hn]. destruct Hf as [Hf1 Hf2]. rewrite (delete_panics E h i n off c Hn Hf1 Hf2). split; [by constructor|]. intros HF. by inversion HF.
  - destruct (L i (or_introl eq_refl)) as [n Hn]. destruct Hf as [Hf1 Hf2]. rewrite (replace_panics E h i n off c s Hn Hf1 Hf2). split; [by constructor|]. intros HF. by inversion HF.
  - destruct (L i (or_introl eq_refl)) as [n Hn]. destruct Hf as [Hf1 Hf2]. rewrite Hn in Ht.
    assert (Hcd : is_character_data n = true) by (unfold is_character_data, is_type; destruct (n_type n); done).
    rewrite (split_panics E h i n off HI Hn Hcd Hf2). split; [by constructor|]. intros HF. by inversion HF.
  - destruct (L i (or_introl eq_refl)) as [n Hn]. rewrite Hn in Ht. apply bool_decide_eq_true in Ht. rewrite (attr_set_panics h i n v HI Hn) by done. split; [by constructor|]. intros HF. by inversion HF.
  - destruct (L i (or_introl eq_refl)) as [n Hn]. apply N; [|intros HF; by inversion HF]. unfold attr_unset_value, panics. rewrite (modifyM_eq _ _ _ _ Hn). by intros [q Hq].
  - destruct (L e (or_introl eq_refl)) as [ne He]. rewrite He in Ht. apply bool_decide_eq_true in Ht. unfold set_attribute. rewrite panics_first. split.
    + intros [[q Hq]|(h1 & k & Hk & HP)]; [apply cf_set_name, C10_panics_iff; by exists q|]. unfold lift in Hk. injection Hk as <- Hk.
      apply (set_new_panics E h e ne k v HE HI He (eq_sym Ht)) in HP; [|by eapply parsed_from_str]. destruct HP as [HP|[H1 H2]]; [by eapply cf_set_gone|by eapply cf_set_bad].
    + assert (HS : forall k, name_from_str n = Ok k -> orphaned h e \/ special_name h e k /\ bad_value E v -> panics (lift (fun _ => name_from_str n)) h \/ exists h1 a, lift (fun _ => name_from_str n) h = (h1, Ok a) /\ panics (set_new_attribute E e a v) h1).
      { intros k Hk HP. right. exists h, k. split; [unfold lift; by rewrite Hk|]. apply (set_new_panics E h e ne k v HE HI He (eq_sym Ht)); [by eapply parsed_from_str|done]. }
      intros HF. inversion HF as [| | | | | | | | | | | | | | | | | | | |? ? ? Hw|? ? ? k Hk Ho|? ? ? k Hk Hs Hb| | | | | | | | ]; subst; [|eapply HS; eauto..]. left. apply C10_panics_iff in Hw as [q Hq]. by exists q.
  - destruct (L e (or_introl eq_refl)) as [ne He]. rewrite He in Ht. apply bool_decide_eq_true in Ht. unfold set_attribute_ns. rewrite panics_first. destruct (name_ns_cases u q) as [_ HW]. split.
    + intros [[y Hy]|(h1 & k & Hk & HP)]; [apply cf_set_ns_name, HW; by exists y|]. unfold lift in Hk. injection Hk as <- Hk.
      apply (set_new_panics E h e ne k v HE HI He (eq_sym Ht)) in HP; [|by eapply parsed_new_ns]. destruct HP as [HP|[H1 H2]]; [by eapply cf_set_ns_gone|by eapply cf_set_ns_bad].
    + assert (HS : forall k, name_new_ns u q = Ok k -> orphaned h e \/ special_name h e k /\ bad_value E v -> panics (lift (fun _ => name_new_ns u q)) h \/ exists h1 a, lift (fun _ => name_new_ns u q) h = (h1, Ok a) /\ panics (set_new_attribute E e a v) h1).
      { intros k Hk HP. right. exists h, k. split; [unfold lift; by rewrite Hk|]. apply (set_new_panics E h e ne k v HE HI He (eq_sym Ht)); [by eapply parsed_new_ns|done]. }
      intros HF. inversion HF; subst; [|eapply HS; eauto..]. left. match goal with H : wide_fault q |- _ => apply HW in H as [y Hy] end. by exists y.
  - destruct (L e (or_introl eq_refl)) as [ne He], (L a (or_intror (or_introl eq_refl))) as [na Ha]. rewrite He in Ht. apply bool_decide_eq_true in Ht. by apply (set_node_panics E h e a ne na).
  - destruct (L e (or_introl eq_refl)) as [ne He]. rewrite He in Ht. apply bool_decide_eq_true in Ht. eapply W; [|intros; by constructor|intros HF; by inversion HF]. unfold remove_attribute.
    apply (remove_attr_panics E h e ne (fun h => get_attribute_node E h e n) _ HE HI He (eq_sym Ht)); [|intros a Ha; eapply got_attr; [exact HE|exact HI|exact Ha]].
    assert (Hty : node_type_of h e = Ok NElement) by (apply node_type_ok; eauto). destruct (attr_node_cases E h e ne n He) as [(H1 & _ & H2)|[H1 H2]]; tauto.
  - destruct (L e (or_introl eq_refl)) as [ne He]. rewrite He in Ht. apply bool_decide_eq_true in Ht. eapply W; [|intros; by constructor|intros HF; by inversion HF]. unfold remove_attribute_ns.
    apply (remove_attr_panics E h e ne (fun h => get_attribute_node_ns E h e u l) _ HE HI He (eq_sym Ht)); [|intros a Ha; eapply got_attr_ns; [exact HE|exact HI|exact Ha]].
    assert (Hty : node_type_of h e = Ok NElement) by (apply node_type_ok; eauto). destruct (attr_node_ns_cases E h e ne u l He) as [(H1 & _ & H2)|[H1 H2]]; tauto.
  - destruct (L e (or_introl eq_refl)) as [ne He], (L a (or_intror (or_introl eq_refl))) as [na Ha]. rewrite He in Ht. apply bool_decide_eq_true in Ht.
    rewrite (remove_attr_node_ok h e a ne na HI He (eq_sym Ht) Ha). split; [intros ->; constructor|]. intros HF. by inversion HF.
  - destruct (L d (or_introl eq_refl)) as [nd Hnd]. apply N; [|intros HF; by inversion HF]. unfold set_xml_declaration. rewrite (panics_node _ _ _ _ Hnd). unfold panics. destruct (n_ext nd); try (by intros [q Hq]).
    rewrite (modifyM_eq _ _ _ _ Hnd). by intros [q Hq].
Qed.
Print Assumptions C68_calls.

(** A node of each kind of trouble: text that starts with a two byte character, a comment without value, an id attribute with a
    bad reference, another without a value, and an element, its text, an element and an attribute whose document is gone. *)
Definition wide : str := [233%N].
Definition ex_panic_ops : list op :=
  [OCreateDocument None None None options_new; OCreateElement 0 (lit "a"); OCreateElement 0 (lit "b"); OCreateText 0 [233; 49]%N;
   OCreateDocument None None None options_new; OCreateElement 4 (lit "x"); OCreateAttribute 4 (lit "k"); OCreateText 4 (lit "tt"); OAppendChild 5 7;
   OCreateElement 4 (lit "y"); OCreateComment 0 (lit "c"); OUnsetNodeValue 9; OCreateAttributeWith 0 (lit "xml:id") (lit "&bad;");
   OCreateAttribute 0 (lit "xml:id"); ODrop [4]].
Definition ex_panic : heap := default empty_heap (run env0 ex_panic_ops empty_heap).
Lemma ex_panic_reachable : reachable ex_panic.
Proof. apply (run0_reachable ex_panic_ops). by vm_compute. Qed.
Definition ex_panic_bad : list op :=
  [OCreateDocument None (Some wide) None options_new; OCreateDocumentType wide None None; OCreateElement 0 wide; OCreateElementNs 0 (lit "http://u") wide;
   OCreateAttribute 0 wide; OCreateAttributeWith 0 wide (lit "v"); OCreateAttributeNs 0 (lit "http://u") wide; OCreatePI 0 wide None; OCreateEntityReference 0 wide;
   OCreateNotation 0 wide None None; OCreateEntity 0 wide None None; OCreateInternalEntity 0 wide (lit "v");
   OInsertBefore 5 8 (Some 7); OInsertBefore 1 1 None; OAppendChild 5 8; OAppendChild 1 1; OReplaceChild 5 8 7; OInsertData 3 1 (lit "z"); ODeleteData 3 0 1; OReplaceData 3 1 1 (lit "z");
   OReplaceData 9 18446744073709551615 1 (lit "z"); OReplaceData 3 2 18446744073709551615 (lit "z"); ODeleteData 3 2 18446744073709551615;
   OSplit 3 1; OSplit 7 1; OSplit 7 5; OAttrSetValue 6 (lit "v"); OSetAttribute 1 wide (lit "v"); OSetAttribute 5 (lit "k") (lit "v"); OSetAttribute 1 (lit "xml:id") (lit "&bad;");
   OSetAttributeNs 1 (lit "http://u") wide (lit "v"); OSetAttributeNs 5 (lit "http://u") (lit "p:k") (lit "v"); OSetAttributeNs 1 xml_uri (lit "xml:id") (lit "&bad;");
   OSetAttributeNode 5 6; OSetAttributeNode 1 6; OSetAttributeNode 1 11; OSetAttributeNode 1 12; ORemoveAttribute 1 wide; ORemoveAttributeNs 1 (lit "http://u") wide; ORemoveAttributeNode 1 1].
Definition ex_panic_good : list op :=
  [OCreateDocument None (Some (lit "r")) None options_new; OCreateElement 0 (lit "1"); OCreatePI 0 (lit "xml") None; OCreateText 0 wide;
   OInsertBefore 1 2 None; OAppendChild 1 0; ORemoveChild 5 7; OReplaceChild 1 2 3; OClone true 5; ONormalize 5; OSetNodeValue 3 wide; OAppendData 3 wide;
   OInsertData 3 2 (lit "z"); OInsertData 3 4 (lit "z"); OInsertData 3 1 []; ODeleteData 3 0 2; OReplaceData 3 0 2 wide; ODeleteData 3 0 18446744073709551615;
   OSplit 3 2; OSplit 3 5; OSetAttribute 1 (lit "xml:id") (lit "&#65;"); OSetAttribute 1 (lit "k") (lit "&bad;"); OSetAttributeNode 1 1; ORemoveAttribute 1 (lit "k"); ORemoveAttributeNode 1 11].
Definition op_fits_b (h : heap) (o : op) : bool :=
  match o with
  | OInsertData _ o _ => (o <? usize_mod)%N
  | ODeleteData _ o k | OReplaceData _ o k _ => (o <? usize_mod)%N && (k <? usize_mod)%N
  | OSplit i o => (o <? usize_mod)%N && match data h i with Ok (Some d) => (blen d <? usize_mod)%N | _ => true end
  | _ => true
  end.
Definition panic_check (h : heap) (b : bool) (o : op) : bool :=
  typed_op h o && forallb (alive h) (handles o) && op_fits_b h o && one_call o &&
  Bool.eqb b match (exec env0 o h).2 with Panic _ => true | _ => false end.
Lemma panic_check_sound h b o : reachable h -> panic_check h b o = true ->
  typed_op h o = true /\ handles_live h o /\ op_fits h o /\ one_call o = true /\ (call_faulty env0 h o <-> b = true).
Proof.
  unfold panic_check. intros Hr H. apply andb_true_iff in H as [H H5]. apply andb_true_iff in H as [H H4]. apply andb_true_iff in H as [H H3]. apply andb_true_iff in H as [H1 H2].
  apply Bool.eqb_prop in H5. assert (Hl : handles_live h o) by (intros i Hi; eapply forallb_forall in H2; eauto).
  assert (Hf : op_fits h o).
  { destruct o; cbn [op_fits_b op_fits] in *; try exact Logic.I.
    - by apply N.ltb_lt in H3.
    - apply andb_true_iff in H3 as [?%N.ltb_lt ?%N.ltb_lt]. done.
    - apply andb_true_iff in H3 as [?%N.ltb_lt ?%N.ltb_lt]. done.
    - apply andb_true_iff in H3 as [?%N.ltb_lt H3]. split; [done|]. intros d Hd. rewrite Hd in H3. by apply N.ltb_lt in H3. }
  do 4 (split; [assumption|]). rewrite <- (C68_calls env0 h o wf_env0 Hr H1 Hl Hf H4). rewrite H5. destruct (exec env0 o h).2; split; intros Hx; try discriminate; try (by destruct Hx); try reflexivity; by eexists.
Qed.
Example C68_example : forall o,
  (In o ex_panic_bad -> typed_op ex_panic o = true /\ handles_live ex_panic o /\ op_fits ex_panic o /\ one_call o = true /\ call_faulty env0 ex_panic o) /\
  (In o ex_panic_good -> typed_op ex_panic o = true /\ handles_live ex_panic o /\ op_fits ex_panic o /\ one_call o = true /\ ~ call_faulty env0 ex_panic o).
Proof.
  assert (Hb : forallb (panic_check ex_panic true) ex_panic_bad = true) by (by vm_compute). assert (Hg : forallb (panic_check ex_panic false) ex_panic_good = true) by (by vm_compute).
  generalize ex_panic_reachable. revert Hb Hg. generalize ex_panic, ex_panic_bad, ex_panic_good. intros h bad good Hb Hg Hr.
  rewrite forallb_forall in Hb, Hg. intros o. split; intros Ho; [apply Hb, (panic_check_sound h) in Ho|apply Hg, (panic_check_sound h) in Ho]; try assumption; destruct Ho as (?&?&?&?&Hi); (do 4 (split; [assumption|])); [by apply Hi|]. intros Hf. by apply Hi in Hf.
Qed.
