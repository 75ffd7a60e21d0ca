(** * C85, further calls: replacing a child, the value of an attribute *)
From Coq Require Import Lia.
From Verif Require Import SpecEdit SpecFrame ProofInv ProofSteps ProofOps ProofFrame ProofShow ProofInsert ProofText ProofAttr ProofElem ProofEdit ProofEditValue PropFrame PropShow PropInsert PropElem PropText PropAttr PropEdit.

Lemma swap_list {A B} (R : A -> B -> Prop) x y (l1 : list A) a l2 ks : Forall2 R (l1 ++ a :: l2) ks -> R x y ->
  Forall2 R (l1 ++ x :: l2) (at_nth (length l1) (fun _ => y) ks).
Proof.
  intros H Hx. apply Forall2_app_inv_l in H as (k1 & k2 & H1 & H2 & ->). inversion H2 as [|? b ? k3 _ H3]; subst.
  rewrite (Forall2_length _ _ _ H1).
  assert (E : at_nth (length k1) (fun _ => y) (k1 ++ b :: k3) = k1 ++ y :: k3). { clear. induction k1 as [|z k1 IH]; cbn; [done|]. by rewrite IH. }
  rewrite E. apply Forall2_app; [done|]. by constructor.
Qed.

(** A child of [p] replaced by a parentless node: what stood there is replaced, nothing else. *)
Theorem C85_replace : forall E h h' r w X p c o x l1 l2 z, wf_env E -> reachable h -> stands_for E h r X -> sole_path h r w p ->
  node_type_of h p <> Ok NAttribute -> consistent_at h p (l1 ++ o :: l2) -> replace_child p c o h = (h', Ok z) ->
  parent_node h c = Ok None -> ~ at_or_below h c p -> stands_for E h c x ->
  stands_for E h' r (edit (w ++ [length l1]) (fun _ => x) X).
Proof.
  intros E h h' r w X p c o x l1 l2 z HE Hr HX Hs Hna Hco H Hpc Hcy Hx. pose proof (reachable_inv h Hr) as HI.
  destruct (replace_child_inv h h' p c o (Ok z) HI H Logic.I) as (np & nc & Hp & Hc & [(_ & ? & _)|[(_ & _ & ? & _)|(Hal & _)]]); [done|done|].
  pose proof Hco as (Hl & Hnd & Hpar). apply child_nodes_get in Hl as (np1 & Hp1 & Hl). assert (np1 = np) by congruence. subst np1.
  assert (Hpt : n_type np <> NAttribute) by (intros Ht; apply Hna; unfold node_type_of; by rewrite (get_node_some _ _ _ Hp); cbn; rewrite Ht).
  assert (Hni : ~ In c (l1 ++ l2)).
  { intros Hin. rewrite (Hpar c) in Hpc; [done|]. rewrite in_app_iff in *. cbn. tauto. }
  pose proof (C33_in_place h h' p c o z l1 l2 Hr Hco Hni H) as Hch. apply child_nodes_get in Hch as (np' & Hp' & Hch).
  assert (Hex : exec E (OReplaceChild p c o) h = (h', Ok (Some z))) by (cbn; unfold out, bind; rewrite H; reflexivity).
  assert (Hw : forall j f n, h_nodes h !! j = Some n -> writes h (OReplaceChild p c o) j f -> f = PParent \/ j = p /\ f = PChildren).
  { cbn. intros j f n Hn [[-> [->|(n' & Hn' & Hq)]]|[-> _]]; [by right|exfalso|by left]. assert (n' = nc) by congruence. subst n'.
    assert (Hct : is_type NAttribute nc = false). { destruct (is_type NAttribute nc) eqn:Et; [|done]. apply is_type_true in Et. rewrite Et in Hal. by destruct (n_type np). }
    unfold parent_node in Hpc. rewrite (get_node_some _ _ _ Hc) in Hpc. cbn in Hpc. rewrite Hct, Hq in Hpc. unfold upgrade, alive in Hpc. by rewrite Hn in Hpc. }
  destruct (C63_locality E h (OReplaceChild p c o) h' _ HE Hr Hex p np Hp ltac:(by intros [])) as (np2 & Hp2 & E1 & E2 & E3 & Hf).
  assert (np2 = np') by congruence. subst np2.
  assert (Ev : n_value np' = n_value np). { destruct (Hf PValue) as [W|S]; [|exact S]. destruct (Hw p _ np Hp W) as [|[_ ?]]; done. }
  assert (Ee : n_ext np' = n_ext np). { destruct (Hf PMaps) as [W|S]; [|exact S]. destruct (Hw p _ np Hp W) as [|[_ ?]]; done. }
  assert (C : changed_at E p h h').
  { eapply (changed_by E h (OReplaceChild p c o)); [done|done|exact Hex|by intros j []|exact Hp|done| | |].
    - intros Ht. by rewrite Ht in Hal.
    - intros j f n Hn W. destruct (Hw j f n Hn W) as [|[-> ->]]; [by left|by right].
    - left. unfold node_value. rewrite (get_node_some _ _ _ Hp), (get_node_some _ _ _ Hp'). cbn. by rewrite Ev. }
  assert (Hed : forall w X, edit (w ++ [length l1]) (fun _ => x) X = edit w (over_kids (at_nth (length l1) (fun _ => x))) X).
  { clear. induction w as [|k w IH]; intros X; [done|]. cbn. destruct X; cbn; f_equal; apply at_nth_ext; intros; apply IH. }
  rewrite Hed. eapply stands_edit; [exact C| |exact Hs|exact HX]. intros P HP.
  eapply (stands_kids E h h' p np np'); [exact C|exact HP|exact Hp|exact Hp'|done..|].
  intros ks Hks. rewrite Hch. apply swap_list with (a := o); [|by eapply stands_outside]. rewrite <- Hl.
  eapply kids_same with (l := n_children np); [|done|exact Hks]. apply Forall_forall. intros i _ j Hz Hi. eapply stands_outside; [done..|]. by eapply sole_children.
Qed.
Print Assumptions C85_replace.

(** The comment in the outer element replaced by another, at the place [[1]]. *)
Example C85_replace_example : sole_path ex_edit 1 [] 1 /\ consistent_at ex_edit 1 ([6] ++ 7 :: [8]) /\ ~ at_or_below ex_edit 10 1 /\
  (replace_child 1 10 7 ex_edit).2 = Ok 7 /\ edit [1] (fun _ => XmlComment (Some (lit "n"))) ex_show_doc =
    XmlElement (lit "a") [(lit "k", lit "1<2"); (lit "l", lit "x")]
      [XmlText (Some (lit "1 & 2")); XmlComment (Some (lit "n")); XmlElement (lit "b") [] [XmlText (Some (lit "t"))]] /\
  to_string env0 (ex_edited (OReplaceChild 1 10 7)) 1 = Ok (lit "<a k=""1&#60;2"" l=""x"">1 &#38; 2<!--n--><b>t</b></a>").
Proof.
  split; [split; [go_down|]; intros w H; walk_paths|]. split.
  { split; [by vm_compute|]. split; [repeat (constructor; [cbn; intuition discriminate|]); constructor|]. intros c [<-|[<-|[<-|[]]]]; by vm_compute. }
  split; [intros (w & H)%below_path; walk_paths|]. by vm_compute.
Qed.

(** ** The value of an attribute *)
Lemma value_changed E h o h' res e a ne na : wf_env E -> reachable h -> h_nodes h !! e = Some ne -> n_type ne = NElement -> h_nodes h !! a = Some na -> n_type na = NAttribute ->
  only_holder h e a -> edits_value o a -> exec E o h = (h', res) ->
  changed_but E e a h h' /\ exists ne', h_nodes h' !! e = Some ne' /\ n_type ne' = n_type ne /\ n_name ne' = n_name ne /\ n_value ne' = n_value ne /\ n_children ne' = n_children ne /\ n_ext ne' = n_ext ne.
Proof.
  intros HE Hr He Hte Ha Hta Hho Ho H. pose proof (reachable_inv h Hr) as HI.
  assert (Hw : forall j f, writes h o j f -> f = PChildren /\ j = a) by (intros j f; destruct o; cbn in Ho |- *; try done; subst; done).
  assert (Hd : forall j, ~ drops o j) by (intros j Hj; destruct o; cbn in Ho, Hj; done).
  assert (L : forall j n, h_nodes h !! j = Some n -> exists n', h_nodes h' !! j = Some n' /\ n_type n' = n_type n /\ n_name n' = n_name n /\ n_owner n' = n_owner n /\
    n_value n' = n_value n /\ (j <> a -> n_children n' = n_children n) /\ n_ext n' = n_ext n).
  { intros j n Hn. destruct (C63_locality E h o h' res HE Hr H j n Hn (Hd j)) as (n' & Hn' & H1 & H2 & H3 & Hf). exists n'. split_and!; try done.
    - destruct (Hf PValue) as [W|S]; [by destruct (Hw _ _ W)|exact S].
    - intros Hj. destruct (Hf PChildren) as [W|S]; [by destruct (Hw _ _ W)|exact S].
    - destruct (Hf PMaps) as [W|S]; [by destruct (Hw _ _ W)|exact S]. }
  assert (K : kept_but a h h').
  { split.
    - intros j n Hj. destruct (L j n Hj) as (n' & Hn' & H1 & H2 & H3 & H4 & H5 & H6). exists n'. split_and!; try done. unfold typed. by rewrite H6.
    - apply (C63_no_resurrection E h o h' res HE Hr H).
    - intros b n c m m' _ _ _ Hm Hm'. destruct (L c m Hm) as (m1 & Hm1 & _ & _ & _ & H4 & _). congruence. }
  split; [split|].
  - intros i n _ Hia Hn. destruct (L i n Hn) as (n' & Hn' & H1 & H2 & H3 & H4 & H5 & H6). exists n'. split_and!; try done; [by apply H5|by rewrite H6].
  - intros b q Hba (n & v & H1 & H2 & H3 & H4 & H5). destruct (L b n H1) as (n' & Hn' & A1 & A2 & _). exists n', v.
    split_and!; [done|congruence|congruence| |done]. by rewrite (bkept_value a E h h' b n K Hba HI H1 H2).
  - exact Hho.
  - intros i t Ht. assert (C : changed_at E e h h). { eapply local_changed; [done|exact He|congruence|congruence| |done]. intros j n Hj. exists n. by split_and!. }
    intros [Hb|Hb]; [by apply (ca_type _ _ _ _ C i t Ht)|]. apply (attr_top h a na) in Hb; [|done..]. subst t.
    unfold doc_type in Ht. destruct (h_nodes h !! i) as [n|] eqn:Hn; [|unfold get_node in Ht; by rewrite Hn in Ht].
    rewrite (get_node_some _ _ _ Hn) in Ht. cbn in Ht. destruct (inv_node h HI i n Hn) as (Hex & _). unfold ext_ok in Hex.
    destruct (n_ext n) as [| |? dt ? ?| | | |]; try discriminate. injection Ht as ->. destruct Hex as (_ & Hex & _).
    destruct (Hex a eq_refl) as (st & Hst & Htt). apply info_inv in Hst as (nt & Hty & <-). cbn in Htt. congruence.
  - destruct (L e ne He) as (ne' & He' & H1 & H2 & H3 & H4 & H5 & H6). exists ne'. split_and!; try done. apply H5. congruence.
Qed.

Lemma nth_attrs E h h' a q : attr_stands_for E h' a q -> forall (l : list (Name * id)) avs k key, l !! k = Some (key, a) -> List.NoDup (map snd l) ->
  (forall b q, b <> a -> attr_stands_for E h b q -> attr_stands_for E h' b q) ->
  Forall2 (attr_stands_for E h) (map snd l) avs -> Forall2 (attr_stands_for E h') (map snd l) (at_nth k (fun _ => q) avs).
Proof.
  intros Hq l. induction l as [|[kk b] l IH]; intros avs k key Hk Hnd Hb HF; [done|]. cbn in HF, Hnd. inversion HF as [|? u ? avs' Hu Hrest]; subst. apply List.NoDup_cons_iff in Hnd as [Hni Hnd].
  destruct k as [|k]; cbn in Hk |- *.
  - injection Hk as -> ->. constructor; [done|]. eapply (attrs_impl E h h'); [|exact Hrest]. intros k' b' q' Hin. apply Hb. intros ->. apply Hni. by apply (in_map snd _ (k', a)).
  - constructor.
    + apply Hb; [|done]. intros ->. apply Hni. apply elem_of_list_lookup_2, elem_of_list_In in Hk. by apply (in_map snd _ (key, a)).
    + by eapply IH.
Qed.

(** The value of an attribute that one element has is set or unset through the attribute, however the call
    ends: at that element the attribute is replaced by what it then stands for; nothing else changes. *)
Theorem C85_attribute_value : forall E h o h' res r w X e a attrs k key q, wf_env E -> reachable h -> stands_for E h r X -> sole_path h r w e -> r <> a ->
  node_type_of h e = Ok NElement -> node_type_of h a = Ok NAttribute -> attributes h e = Ok attrs -> attrs !! k = Some (key, a) -> only_holder h e a ->
  edits_value o a -> exec E o h = (h', res) -> attr_stands_for E h' a q ->
  stands_for E h' r (edit w (over_attrs (at_nth k (fun _ => q))) X).
Proof.
  intros E h o h' res r w X e a attrs k key q HE Hr HX Hs Hra Hte Hta Hat Hk Hho Ho H Hq. apply type_of_get in Hte as (ne & He & Ht). apply type_of_get in Hta as (na & Ha & Hta).
  pose proof (reachable_inv h Hr) as HI.
  destruct (value_changed E h o h' res e a ne na HE Hr He Ht Ha Hta Hho Ho H) as (C & ne' & He' & A1 & A2 & A3 & A4 & A5).
  eapply (bstands_edit E e a h h'); [done|by exists na|congruence|exact C| |done|exact Hs|exact HX]. intros P HP.
  inversion HP as [? n0 attrs0 avs0 kids Hn0 Hty Hat0 Hav0 Hks| | | | | | | | | |? ? (? & ? & ? & ? & _)| |]; subst; try congruence.
  assert (n0 = ne) by congruence. subst n0. assert (attrs0 = attrs) by congruence. subst attrs0. cbn [over_attrs]. rewrite <- A2.
  assert (Hat' : attributes h' e = Ok attrs).
  { eapply (shown_attributes h h'); [exact He|exact He'|done|by rewrite A5|done]. }
  eapply sf_element; [exact He'|congruence|exact Hat'| |].
  - eapply (nth_attrs E h h' a q Hq attrs); [exact Hk| |apply (cb_attr _ _ _ _ _ C)|exact Hav0].
    destruct (C39_keyed_by_name h e attrs Hr Hat) as [Hnd Hkey]. clear - Hnd Hkey. induction attrs as [|[k b] l IH]; cbn in *; [constructor|].
    apply List.NoDup_cons_iff in Hnd as [Hni Hnd]. constructor; [|apply IH; [done|]; intros k' b' Hin; by apply Hkey; right].
    intros Hin. apply in_map_iff in Hin as ([k' b'] & Heq & Hin). cbn in Heq. subst b'. apply Hni.
    destruct (Hkey k b (or_introl eq_refl)) as (_ & N1 & _). destruct (Hkey k' b (or_intror Hin)) as (_ & N2 & _). assert (k' = k) by congruence. subst k'. by apply (in_map fst _ (k, b)).
  - rewrite A4. eapply kids_same with (l := n_children ne); [|done|exact Hks]. apply Forall_forall. intros z _ i Hz Hi. eapply bstands_outside; [done..|].
    intros [Hb|Hb]; [by eapply sole_children|]. apply (attr_top h a na) in Hb; [|done..]. subst i.
    destruct (inv_node h HI e ne He) as (_ & _ & _ & [Hch _] & _). destruct (Hch a Hi) as (_ & s & Hs' & [Hal _]). apply info_inv in Hs' as (na' & Ha' & <-).
    assert (na' = na) by congruence. subst na'. cbn in Hal. rewrite Hta in Hal. by destruct (n_type ne).
Qed.
Print Assumptions C85_attribute_value.

(** Setting the value through the attribute, with the value that is given. *)
Theorem C85_set_value : forall E h h' r w X e a attrs k key v l t0 t, wf_env E -> reachable h -> stands_for E h r X -> sole_path h r w e -> r <> a ->
  node_type_of h e = Ok NElement -> node_type_of h a = Ok NAttribute -> attributes h e = Ok attrs -> attrs !! k = Some (key, a) -> only_holder h e a ->
  attr_set_value a v h = (h', Ok tt) -> line_ends_normalised v l -> expands E l t0 -> trimmed t0 t ->
  stands_for E h' r (edit w (over_attrs (at_nth k (fun q => (q.1, t)))) X).
Proof.
  intros E h h' r w X e a attrs k key v l t0 t HE Hr HX Hs Hra Hte Hta Hat Hk Hho H Hl Hx Ht.
  destruct (C39_keyed_by_name h e attrs Hr Hat) as [_ Hkey]. destruct (Hkey key a) as (_ & Hna & _); [by eapply elem_of_list_In, elem_of_list_lookup_2|].
  assert (Hex : exec E (OAttrSetValue a v) h = (h', Ok None)) by (cbn; unfold out, bind; rewrite H; reflexivity).
  apply type_of_get in Hta as G. destruct G as (na & Ha & Ht'). unfold node_name in Hna. rewrite (get_node_some _ _ _ Ha) in Hna. injection Hna as Hna.
  assert (Hq : attr_stands_for E h' a (name_to_string key, t)).
  { destruct (C63_locality E h _ h' _ HE Hr Hex a na Ha) as (na' & Ha' & E1 & E2 & _); [by intros []|].
    exists na', (Some (escape t)). split; [done|]. split; [congruence|]. split; [cbn; congruence|]. split; [|apply escape_escaped].
    eapply C05_references_expanded; [done| |exact Hl|exact Hx|exact Ht|apply escape_escaped].
    destruct (set_value_does h a na v (reachable_inv h Hr) Ha Ht') as (d & _ & [(_ & h2 & H2 & Hst)|(_ & h2 & p & H2)]); rewrite H in H2; [by injection H2 as <-|discriminate]. }
  pose proof (C85_attribute_value E h _ h' _ r w X e a attrs k key _ HE Hr HX Hs Hra Hte Hta Hat Hk Hho (eq_refl : edits_value (OAttrSetValue a v) a) Hex Hq) as G.
  erewrite (edit_at E h e w); [exact G|exact (proj1 Hs)|exact HX|]. intros P HP. destruct P as [nm avs ks| | | | | | | | | | |]; try done. cbn [over_attrs]. f_equal.
  apply at_nth_ext. intros u Hu. f_equal. inversion HP as [? n0 attrs0 avs0 kids Hn0 Hty Hat0 Hav0 Hks| | | | | | | | | | | |]; subst.
  assert (attrs0 = attrs) by congruence. subst attrs0. eapply Forall2_lookup_r in Hav0 as (b & Hb & nb & o & Hnb & _ & Hpr & _); [|exact Hu].
  rewrite list_lookup_fmap, Hk in Hb. injection Hb as <-. congruence.
Qed.
Print Assumptions C85_set_value.

(** The attribute [k] of the outer element is node 3. *)
Example C85_attribute_value_example : sole_path ex_edit 1 [] 1 /\ node_type_of ex_edit 3 = Ok NAttribute /\
  (let? attrs := attributes ex_edit 1 in Ok (map snd attrs)) = Ok [3; 5] /\ only_holder ex_edit 1 3 /\
  (exec env0 (OAttrSetValue 3 (lit "z")) ex_edit).2 = Ok None /\ attr_stands_for env0 (ex_edited (OAttrSetValue 3 (lit "z"))) 3 (lit "k", lit "z") /\
  edit [] (over_attrs (at_nth 0 (fun _ => (lit "k", lit "z")))) ex_show_doc =
    XmlElement (lit "a") [(lit "k", lit "z"); (lit "l", lit "x")]
      [XmlText (Some (lit "1 & 2")); XmlComment (Some (lit "a>b")); XmlElement (lit "b") [] [XmlText (Some (lit "t"))]] /\
  to_string env0 (ex_edited (OAttrSetValue 3 (lit "z"))) 1 = Ok (lit "<a k=""z"" l=""x"">1 &#38; 2<!--a&#62;b--><b>t</b></a>").
Proof.
  split; [split; [go_down|]; intros w H; walk_paths|]. split; [by vm_compute|]. split; [by vm_compute|]. split.
  { intros i l k Hl Hin. pose proof Hl as Hl'. apply attributes_ok in Hl' as (n & Hn & _).
    pose proof (inv_lt ex_edit (reachable_inv _ ex_edit_reachable) i n Hn) as Hlt. change (h_next ex_edit) with 11 in Hlt. clear Hn.
    do 11 (destruct i as [|i]; [vm_compute in Hl; injection Hl as <-; cbn in Hin; first [exact eq_refl|exfalso; repeat (destruct Hin as [Hin|Hin]; [discriminate Hin|]); exact Hin]|]). lia. }
  split; [by vm_compute|]. split; [show_attr|]. by vm_compute.
Qed.
(** The value of [C85_value_example]. *)
Example C85_set_value_example : (attr_set_value 3 (lit " &#38; ") ex_edit).2 = Ok tt /\
  edit [] (over_attrs (at_nth 0 (fun q => (q.1, lit "&")))) ex_show_doc =
    XmlElement (lit "a") [(lit "k", lit "&"); (lit "l", lit "x")]
      [XmlText (Some (lit "1 & 2")); XmlComment (Some (lit "a>b")); XmlElement (lit "b") [] [XmlText (Some (lit "t"))]] /\
  to_string env0 (ex_edited (OAttrSetValue 3 (lit " &#38; "))) 1 = Ok (lit "<a k=""&#38;"" l=""x"">1 &#38; 2<!--a&#62;b--><b>t</b></a>").
Proof. by vm_compute. Qed.
