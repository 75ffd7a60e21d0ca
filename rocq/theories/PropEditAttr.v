(** * C85, attributes: what attribute calls do to the document a node stands for *)
From Coq Require Import Lia.
From Verif Require Import SpecEdit ProofAttr ProofText ProofName ProofInv ProofSteps ProofOps ProofFrame ProofShow ProofElem ProofEdit ProofEditAttr PropShow PropEdit PropElem PropName PropText.

Lemma attrs_changed E h o h' res e ne : reachable h -> h_nodes h !! e = Some ne -> n_type ne = NElement -> edits_attributes o e ->
  exec E o h = (h', res) -> changed_at E e h h' /\ exists ne', h_nodes h' !! e = Some ne' /\ calm_node e e ne ne'.
Proof.
  intros Hr He Ht Ho H. pose proof (reachable_inv h Hr) as HI.
  destruct (cm_exec E o e h Ho h' res H (inv_lt h HI)) as (_ & _ & O & D).
  assert (K : kept h h').
  { split.
    - intros j n Hj. destruct (O j n Hj) as (n' & Hn' & A1 & A2 & A3 & A4 & A5 & A6 & A7). by exists n'.
    - exact D.
    - intros a n c m m' _ _ _ Hm Hm'. destruct (O c m Hm) as (m1 & Hm1 & _ & _ & A3 & _). congruence. }
  split; [split|].
  - intros j n Hj Hn. destruct (O j n Hn) as (n' & Hn' & A1 & A2 & A3 & A4 & A5 & A6 & A7). exists n'. split_and!; try done. by apply A7.
  - intros a q (n & v & H1 & H2 & H3 & H4 & H5). destruct (O a n H1) as (n' & Hn' & A1 & A2 & _). exists n', v.
    split_and!; [done|congruence|congruence| |done]. by rewrite (kept_value E h h' a n K HI H1 H2).
  - apply (ca_type E e h h). eapply local_changed; [done|exact He|congruence|congruence| |done]. intros j n Hj. exists n. by split_and!.
  - destruct (O e ne He) as (ne' & Hne' & C). by exists ne'.
Qed.

(** Whichever attribute call is made on an element, and however it ends: the document is the same but
    for the attributes at that place, which are those the element then has. *)
Theorem C85_attributes : forall E h o h' res r w X e attrs avs, reachable h -> stands_for E h r X -> sole_path h r w e ->
  node_type_of h e = Ok NElement -> edits_attributes o e -> exec E o h = (h', res) ->
  attributes h' e = Ok attrs -> Forall2 (attr_stands_for E h') (map snd attrs) avs ->
  stands_for E h' r (edit w (over_attrs (fun _ => avs)) X).
Proof.
  intros E h o h' res r w X e attrs avs Hr HX Hs Hte Ho H Hat Hav. apply type_of_get in Hte as (ne & He & Ht).
  destruct (attrs_changed E h o h' res e ne Hr He Ht Ho H) as (C & ne' & He' & A1 & A2 & A3 & A4 & A5 & _).
  eapply stands_edit; [exact C| |exact Hs|exact HX]. intros P HP.
  inversion HP as [? n attrs0 avs0 kids Hn Hty Hat0 Hav0 Hk| | | | | | | | | |? ? (? & ? & ? & ? & _)| |]; subst; try congruence.
  assert (n = ne) by congruence. subst n. cbn [over_attrs]. rewrite <- A2. eapply sf_element; [exact He'|congruence|exact Hat|exact Hav|].
  rewrite A5. eapply kids_same with (l := n_children ne); [|done|exact Hk]. apply Forall_forall. intros z _ i Hz Hi. eapply stands_outside; [done..|]. by eapply sole_children.
Qed.
Print Assumptions C85_attributes.


Lemma set_attr_list E h h' nm n t a : name_to_string nm = n -> attr_stands_for E h' a (n, t) ->
  forall (attrs : list (Name * id)) avs, (forall k b, In (k, b) attrs -> (name_to_string k = n -> k = nm) /\
    forall q, attr_stands_for E h b q -> q.1 = name_to_string k /\ attr_stands_for E h' b q) ->
  Forall2 (attr_stands_for E h) (map snd attrs) avs -> Forall2 (attr_stands_for E h') (map snd (hm_insert nm a attrs)) (set_attr n t avs).
Proof.
  intros Hn Ha attrs. induction attrs as [|[k b] attrs IH]; intros avs Hall HF; cbn in HF; inversion HF as [|? [m u] ? avs' Hb Hrest]; subst; clear HF.
  - cbn. by constructor.
  - destruct (Hall k b (or_introl eq_refl)) as [Hk Hq]. destruct (Hq _ Hb) as [Hm Hb']. cbn in Hm. cbn [set_attr hm_insert].
    assert (Hr2 : Forall2 (attr_stands_for E h') (map snd attrs) avs').
    { assert (G : forall (l : list (Name * id)) avs, (forall k b, In (k, b) l -> forall q, attr_stands_for E h b q -> attr_stands_for E h' b q) -> Forall2 (attr_stands_for E h) (map snd l) avs -> Forall2 (attr_stands_for E h') (map snd l) avs).
      { clear. induction l as [|[k b] l IH]; intros avs H HF; cbn in HF; inversion HF; subst; constructor; [eapply H; [by left|done]|apply IH; [|done]; intros k' b' ?; eapply H; by right]. }
      eapply G; [|exact Hrest]. intros k' b' Hin q ?. apply (proj2 (Hall k' b' (or_intror Hin))); done. }
    destruct (bool_decide (k = nm)) eqn:Hd; [apply bool_decide_eq_true in Hd|apply bool_decide_eq_false in Hd].
    + subst k. assert (Hs : str_eqb m (name_to_string nm) = true) by (by apply str_eqb_true); rewrite Hs; clear Hs. by constructor.
    + destruct (str_eqb m (name_to_string nm)) eqn:Hs; [apply str_eqb_true in Hs; exfalso; apply Hd, Hk; congruence|].
      constructor; [done|]. apply IH; [|done]. intros k' b' Hin. by apply Hall; right.
Qed.

(** Setting an attribute by name: the element has it with the value that was given, read as an attribute
    value (line ends normalised, references expanded, trimmed), in place of the old one or last. *)
Theorem C85_set_attribute : forall E h h' r w X e n v l t0 t, wf_env E -> reachable h -> stands_for E h r X -> sole_path h r w e ->
  node_type_of h e = Ok NElement -> no_ns_twin h e n -> set_attribute E e n v h = (h', Ok tt) ->
  line_ends_normalised v l -> expands E l t0 -> trimmed t0 t ->
  stands_for E h' r (edit w (over_attrs (set_attr n t)) X).
Proof.
  intros E h h' r w X e n v l t0 t HE Hr HX Hs Hte Htw H Hl Hx0 Htr. apply type_of_get in Hte as (ne & He & Ht). pose proof (reachable_inv h Hr) as HI.
  assert (Hex : exists res, exec E (OSetAttribute e n v) h = (h', res)).
  { destruct (exec E (OSetAttribute e n v) h) as [h1 r1] eqn:Hq. exists r1. cbn [exec] in Hq. unfold out, bind in Hq. rewrite H in Hq. by injection Hq as <- _. }
  destruct Hex as [res Hex].
  destruct (attrs_changed E h (OSetAttribute e n v) h' res e ne Hr He Ht eq_refl Hex) as (C & ne' & He' & A1 & A2 & A3 & A4 & A5 & _).
  unfold set_attribute in H. destruct (name_from_str n) as [nm| | |] eqn:Hn; unfold bind at 1, lift in H; cbn in H; try discriminate.
  destruct (set_new_attribute_inv E h h' e ne nm v (Ok tt) HI He Ht (parsed_from_str _ _ Hn) H Logic.I) as (a & attrs & nss & nss' & W).
  pose proof (ws_ext _ _ _ _ _ _ _ _ _ _ _ _ W) as Hx. pose proof (ws_e' _ _ _ _ _ _ _ _ _ _ _ _ W) as He2.
  pose proof (attributes_el h e ne _ _ He Ht Hx) as Hat. pose proof (C09_print_parse _ _ Hn) as Hpr.
  assert (Hat' : attributes h' e = Ok (hm_insert nm a attrs)) by (by eapply attributes_el).
  destruct (ws_a' _ _ _ _ _ _ _ _ _ _ _ _ W) as (tx & d & Ha' & _ & Htx).
  destruct (C39_keyed_by_name h e attrs Hr Hat) as [_ Hkey].
  assert (Htw' : forall k b, In (k, b) attrs -> name_to_string k = n -> k = nm).
  { intros k b Hin Hp. pose proof (Htw attrs k b Hat Hin Hp) as Hk. destruct (Hkey k b Hin) as (Htb & Hnb & _).
    apply type_of_get in Htb as (nb & Hb & Htb). unfold node_name, get_node in Hnb. rewrite Hb in Hnb. injection Hnb as Hnb.
    destruct (inv_node h HI b nb Hb) as (_ & _ & _ & _ & Hnm). unfold name_ok in Hnm. rewrite Htb in Hnm. destruct Hnm as [s Hs']. rewrite Hnb in Hs'.
    destruct k as [kn kp kl]. cbn in *. subst kn. eapply C09_print_injective; [exact Hs'|exact Hn|congruence]. }
  eapply stands_edit; [exact C| |exact Hs|exact HX]. intros P HP.
  inversion HP as [? n0 attrs0 avs0 kids Hn0 Hty Hat0 Hav0 Hk| | | | | | | | | |? ? (? & ? & ? & ? & _)| |]; subst; try congruence.
  assert (n0 = ne) by congruence. subst n0. assert (attrs0 = attrs) by congruence. subst attrs0. cbn [over_attrs]. rewrite <- A2.
  eapply sf_element; [exact He'|congruence|exact Hat'| |].
  - eapply (set_attr_list E h h'); [done| | |exact Hav0].
    + eexists _, (Some (escape t)). split; [exact Ha'|]. split; [done|]. split; [done|]. split; [|apply escape_escaped].
      eapply C05_references_expanded; [done|by eapply stored_new|exact Hl|exact Hx0|exact Htr|apply escape_escaped].
    + intros k b Hin. split; [by apply (Htw' k b)|]. intros q Hq. split; [|by apply (ca_attr _ _ _ _ C)].
      destruct Hq as (nb & o & Hb & _ & Hnb & _). destruct (Hkey k b Hin) as (_ & Hnm & _). unfold node_name, get_node in Hnm. rewrite Hb in Hnm. injection Hnm as <-. done.
  - rewrite A5. eapply kids_same with (l := n_children ne); [|done|exact Hk]. apply Forall_forall. intros z _ i Hz Hi. eapply stands_outside; [done..|]. by eapply sole_children.
Qed.
Print Assumptions C85_set_attribute.

Lemma drop_attr_none E h h' n : forall (attrs : list (Name * id)) avs,
  (forall k b, In (k, b) attrs -> name_to_string k <> n /\ forall q, attr_stands_for E h b q -> q.1 = name_to_string k /\ attr_stands_for E h' b q) ->
  Forall2 (attr_stands_for E h) (map snd attrs) avs -> Forall2 (attr_stands_for E h') (map snd attrs) (drop_attr n avs).
Proof.
  induction attrs as [|[k b] attrs IH]; intros avs Hall HF; cbn in HF; inversion HF as [|? [m u] ? avs' Hb Hrest]; subst; clear HF; [constructor|].
  destruct (Hall k b (or_introl eq_refl)) as [Hk Hq]. destruct (Hq _ Hb) as [Hm Hb']. cbn in Hm. unfold drop_attr. cbn [List.filter fst].
  assert (Hs : str_eqb m n = false) by (apply str_eqb_false; congruence). rewrite Hs. cbn. constructor; [done|].
  apply IH; [|done]. intros k' b' Hin. by apply Hall; right.
Qed.
Lemma drop_attr_list E h h' n k0 : name_to_string k0 = n -> forall (attrs : list (Name * id)) avs, List.NoDup (map fst attrs) ->
  (exists a, In (k0, a) attrs) ->
  (forall k b, In (k, b) attrs -> (name_to_string k = n -> k = k0) /\ forall q, attr_stands_for E h b q -> q.1 = name_to_string k /\ attr_stands_for E h' b q) ->
  Forall2 (attr_stands_for E h) (map snd attrs) avs -> Forall2 (attr_stands_for E h') (map snd (hm_remove k0 attrs)) (drop_attr n avs).
Proof.
  intros Hn attrs. induction attrs as [|[k b] attrs IH]; intros avs Hnd [a0 Hin0] Hall HF; cbn in HF; inversion HF as [|? [m u] ? avs' Hb Hrest]; subst; clear HF; [done|].
  cbn in Hnd. apply List.NoDup_cons_iff in Hnd as [Hni Hnd].
  destruct (Hall k b (or_introl eq_refl)) as [Hk Hq]. destruct (Hq _ Hb) as [Hm Hb']. cbn in Hm. unfold drop_attr. cbn [List.filter fst hm_remove].
  destruct (bool_decide (k = k0)) eqn:Hd; [apply bool_decide_eq_true in Hd|apply bool_decide_eq_false in Hd].
  - subst k. assert (Hs : str_eqb m (name_to_string k0) = true) by (by apply str_eqb_true). rewrite Hs. cbn. eapply (drop_attr_none E h h'); [|exact Hrest].
    intros k b' Hin. destruct (Hall k b' (or_intror Hin)) as [H1 H2]. split; [|done]. intros Hk'. apply Hni. rewrite <- (H1 Hk'). by apply (in_map fst _ (k, b')).
  - assert (Hs : str_eqb m (name_to_string k0) = false) by (apply str_eqb_false; intros ->; apply Hd, Hk; congruence). rewrite Hs. cbn. constructor; [done|].
    apply IH; [done| | |done]; [|intros k' b' Hin; by apply Hall; right]. destruct Hin0 as [[= -> ->]|Hin0]; [done|by exists a0].
Qed.
Lemma remove_attribute_listed E h h' e n ne attrs nss r : wf_env E -> reachable h -> h_nodes h !! e = Some ne -> n_type ne = NElement -> n_ext ne = XElement attrs nss ->
  printed_apart h e -> remove_attribute E e n h = (h', r) -> returned r ->
  (attributes h' e = Ok attrs /\ forall k a, In (k, a) attrs -> name_to_string k <> n) \/
  exists k a, In (k, a) attrs /\ name_to_string k = n /\ attributes h' e = Ok (hm_remove k attrs).
Proof.
  intros HE Hr He Hte Hx Hap H Hret. pose proof (reachable_inv h Hr) as HI. pose proof (attributes_el h e ne _ _ He Hte Hx) as Hat.
  destruct (C39_keyed_by_name h e attrs Hr Hat) as [Hnd Hkey].
  assert (Hte' : node_type_of h e = Ok NElement) by (unfold node_type_of; rewrite (get_node_some _ _ _ He); cbn; by rewrite Hte).
  destruct (C41_remove E h h' e n r attrs HE Hr Hte' Hat Hap H Hret) as (_ & Hsame & _ & _).
  destruct (exists_or_none (by_print n) attrs) as [(k & a & Hin & Hp)|Hno].
  2:{ left. assert (Hno' : forall k a, In (k, a) attrs -> name_to_string k <> n) by (intros k a Hin; apply str_eqb_false; by apply (Hno k a)). by rewrite (Hsame Hno'). }
  right. exists k, a. apply str_eqb_true in Hp as Hp'. split; [done|]. split; [done|].
  destruct (Hkey k a Hin) as (Hta & Hna & _). apply type_of_get in Hta as (na & Ha & Hta). unfold node_name in Hna. rewrite (get_node_some _ _ _ Ha) in Hna. injection Hna as Hna.
  destruct (inv_node h HI a na Ha) as (_ & _ & _ & _ & Hnm). unfold name_ok in Hnm. rewrite Hta in Hnm. destruct Hnm as [s Hs']. rewrite Hna in Hs'.
  pose proof (C09_print_parse _ _ Hs') as Hps. assert (s = n) as -> by (rewrite <- Hps, <- Hp'; done).
  unfold remove_attribute in H. pose proof (get_attribute_node_eq E h e ne attrs nss n _ He Hte Hx Hs') as Hg. rewrite (bind_read _ _ _ _ Hg) in H.
  assert (Hau : at_most_one (by_print n) attrs).
  { intros k1 a1 k2 a2 H1 H2 Hp1%str_eqb_true Hp2%str_eqb_true. eapply Hap; try done. congruence. }
  rewrite (lookup_attr_some E _ _ k a HE Hnd Hau Hin Hp) in H.
  rewrite (bind_ok _ _ _ _ _ (remove_attribute_node_eq h e a ne na attrs nss HI He Hte Hx Ha Hta)) in H. injection H as <- <-. rewrite Hna.
  eapply attributes_el; [apply lookup_upd|done|done].
Qed.
(** Removing an attribute by name: the element has all the others. *)
Theorem C85_remove_attribute : forall E h h' r w X e n res, wf_env E -> reachable h -> stands_for E h r X -> sole_path h r w e ->
  node_type_of h e = Ok NElement -> printed_apart h e -> remove_attribute E e n h = (h', res) -> returned res ->
  stands_for E h' r (edit w (over_attrs (drop_attr n)) X).
Proof.
  intros E h h' r w X e n res HE Hr HX Hs Hte Hap H Hret. apply type_of_get in Hte as (ne & He & Ht). pose proof (reachable_inv h Hr) as HI.
  assert (Hex : exists res, exec E (ORemoveAttribute e n) h = (h', res)).
  { destruct (exec E (ORemoveAttribute e n) h) as [h1 r1] eqn:Hq. exists r1. cbn [exec] in Hq. unfold out, bind in Hq. rewrite H in Hq. destruct res; by injection Hq as <- _. }
  destruct Hex as [res' Hex].
  destruct (attrs_changed E h _ h' res' e ne Hr He Ht (eq_refl : edits_attributes (ORemoveAttribute e n) e) Hex) as (C & ne' & He' & A1 & A2 & A3 & A4 & A5 & _).
  destruct (el_ext h e ne HI He Ht) as (attrs & nss & Hx). pose proof (attributes_el h e ne _ _ He Ht Hx) as Hat. destruct (C39_keyed_by_name h e attrs Hr Hat) as [Hnd Hkey].
  pose proof (remove_attribute_listed E h h' e n ne attrs nss res HE Hr He Ht Hx Hap H Hret) as Hl.
  assert (Hq : forall k b, In (k, b) attrs -> forall q, attr_stands_for E h b q -> q.1 = name_to_string k /\ attr_stands_for E h' b q).
  { intros k b Hin q Hq. split; [|by apply (ca_attr _ _ _ _ C)].
    destruct Hq as (nb & o & Hb & _ & Hnb & _). destruct (Hkey k b Hin) as (_ & Hnm & _). unfold node_name, get_node in Hnm. rewrite Hb in Hnm. injection Hnm as <-. done. }
  eapply stands_edit; [exact C| |exact Hs|exact HX]. intros P HP.
  inversion HP as [? n0 attrs0 avs0 kids Hn0 Hty Hat0 Hav0 Hk| | | | | | | | | |? ? (? & ? & ? & ? & _)| |]; subst; try congruence.
  assert (n0 = ne) by congruence. subst n0. assert (attrs0 = attrs) by congruence. subst attrs0. cbn [over_attrs]. rewrite <- A2.
  assert (Hks : Forall2 (stands_for E h') (n_children ne') kids).
  { rewrite A5. eapply kids_same with (l := n_children ne); [|done|exact Hk]. apply Forall_forall. intros z _ i Hz Hi. eapply stands_outside; [done..|]. by eapply sole_children. }
  destruct Hl as [[Hat' Hno]|(k & a & Hin & Hkn & Hat')]; (eapply sf_element; [exact He'|congruence|exact Hat'| |exact Hks]).
  - eapply (drop_attr_none E h h'); [|exact Hav0]. intros k b Hin. split; [by eapply Hno|by apply (Hq k b)].
  - eapply (drop_attr_list E h h'); [done|done|by exists a| |exact Hav0]. intros k' b Hin'. split; [|by apply (Hq k' b)].
    intros Hk'. eapply (Hap attrs); try done. congruence.
Qed.
Print Assumptions C85_remove_attribute.

(** Setting an attribute of the outer element in place, adding one to the inner element, taking one away. *)
Example C85_attributes_example : sole_path ex_edit 1 [] 1 /\ sole_path ex_edit 1 [2] 8 /\ node_type_of ex_edit 8 = Ok NElement /\ no_ns_twin ex_edit 1 (lit "k") /\ printed_apart ex_edit 1 /\
  no_ns_twin ex_edit 8 (lit "m") /\ (set_attribute env0 1 (lit "k") (lit "z") ex_edit).2 = Ok tt /\ (set_attribute env0 8 (lit "m") (lit " &#38; ") ex_edit).2 = Ok tt /\
  edits_attributes (ORemoveAttribute 1 (lit "k")) 1 /\
  to_string env0 (ex_edited (OSetAttribute 1 (lit "k") (lit "z"))) 1 = Ok (lit "<a k=""z"" l=""x"">1 &#38; 2<!--a&#62;b--><b>t</b></a>") /\
  to_string env0 (ex_edited (OSetAttribute 8 (lit "m") (lit " &#38; "))) 1 = Ok (lit "<a k=""1&#60;2"" l=""x"">1 &#38; 2<!--a&#62;b--><b m=""&#38;"">t</b></a>") /\
  to_string env0 (ex_edited (ORemoveAttribute 1 (lit "k"))) 1 = Ok (lit "<a l=""x"">1 &#38; 2<!--a&#62;b--><b>t</b></a>").
Proof.
  split; [split; [go_down|]; intros w H; walk_paths|]. split; [exact ex_edit_sole|]. split; [by vm_compute|].
  split; [intros l k a Hl Hin _; vm_compute in Hl; injection Hl as <-; cbn in Hin; repeat (destruct Hin as [Hin|Hin]; [injection Hin as <- <-; done|]); done|].
  split; [intros l k1 a1 k2 a2 Hl H1 H2 Hk; vm_compute in Hl; injection Hl as <-; cbn in H1, H2; destruct H1 as [[= <- <-]|[[= <- <-]|[]]], H2 as [[= <- <-]|[[= <- <-]|[]]]; done|].
  split; [intros l k a Hl Hin _; vm_compute in Hl; injection Hl as <-; cbn in Hin; repeat (destruct Hin as [Hin|Hin]; [injection Hin as <- <-; done|]); done|].
  split; [by vm_compute|]. split; [by vm_compute|]. split; [done|]. by vm_compute.
Qed.
(** The hypotheses on the value: the line ends, the reference and the space around it. *)
Example C85_value_example : line_ends_normalised (lit " &#38; ") (lit " &#38; ") /\ expands env0 (lit " &#38; ") (lit " & ") /\ trimmed (lit " & ") (lit "&").
Proof.
  split; [repeat (apply le_plain; [discriminate..|]); apply le_nil|]. split.
  - apply (ex_plain env0 32%N (lit "&#38; ") (lit "& ")); [unfold white; intros [H|[H|H]]; discriminate|apply no_ref_other; discriminate|].
    apply (ex_dec env0 (lit "&#38; ") (lit "38") (lit " ") (lit " ")).
    + split; [done|]. split; [done|]. repeat constructor.
    + constructor; [done|constructor; [done|constructor]].
    + apply char_try_from_spec. by vm_compute.
    + apply (ex_plain env0 32%N [] []); [unfold white; intros [H|[H|H]]; discriminate|apply no_ref_other; discriminate|constructor].
  - exists [32%N], [32%N]. split; [done|]. split; [by repeat constructor|]. split; [by repeat constructor|].
    split; [done|]. intros [|? [|? x]] H; discriminate.
Qed.
Example C85_attr_edit_example :
  edit [] (over_attrs (set_attr (lit "k") (lit "z"))) ex_show_doc =
    XmlElement (lit "a") [(lit "k", lit "z"); (lit "l", lit "x")]
      [XmlText (Some (lit "1 & 2")); XmlComment (Some (lit "a>b")); XmlElement (lit "b") [] [XmlText (Some (lit "t"))]] /\
  edit [2] (over_attrs (set_attr (lit "m") (lit "&"))) ex_show_doc =
    XmlElement (lit "a") [(lit "k", lit "1<2"); (lit "l", lit "x")]
      [XmlText (Some (lit "1 & 2")); XmlComment (Some (lit "a>b")); XmlElement (lit "b") [(lit "m", lit "&")] [XmlText (Some (lit "t"))]] /\
  edit [] (over_attrs (drop_attr (lit "k"))) ex_show_doc =
    XmlElement (lit "a") [(lit "l", lit "x")]
      [XmlText (Some (lit "1 & 2")); XmlComment (Some (lit "a>b")); XmlElement (lit "b") [] [XmlText (Some (lit "t"))]].
Proof. by vm_compute. Qed.
