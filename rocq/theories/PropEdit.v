(** * C85: what the tree calls do to the document a node stands for *)
From Verif Require Import SpecWalk SpecEdit ProofInv ProofWalk ProofSteps ProofOps ProofShow PropFrame ProofElem PropShow PropClone ProofEdit.

Lemma list_cut {A B} (R : A -> B -> Prop) k l l' : Forall2 R l l' -> Forall2 R (delete k l) (take k l' ++ drop (S k) l').
Proof. intros H. rewrite delete_take_drop. apply Forall2_app; [by apply Forall2_take|by apply Forall2_drop]. Qed.

(** What is done at a place depends on what stands there only. *)
Lemma at_nth_ext {A} (f g : A -> A) l : forall k, (forall x, l !! k = Some x -> f x = g x) -> at_nth k f l = at_nth k g l.
Proof. induction l as [|y l IH]; intros [|k] H; cbn; try done; f_equal; [by apply H|]. by apply IH. Qed.
Lemma edit_at E h p w f g : forall r X, path h r w p -> stands_for E h r X -> (forall P, stands_for E h p P -> f P = g P) -> edit w f X = edit w g X.
Proof.
  induction w as [|k w IH]; intros r X Hp HX Hfg; inversion Hp as [|? l ? c ? ? Hl Hk Hw]; subst; cbn [edit]; [by apply Hfg|].
  apply child_nodes_get in Hl as (n & Hn & <-).
  assert (G : forall ks, Forall2 (stands_for E h) (n_children n) ks -> at_nth k (edit w f) ks = at_nth k (edit w g) ks).
  { intros ks F. apply at_nth_ext. intros x Hx. destruct (Forall2_lookup_r _ _ _ _ _ F Hx) as (d & Hd & Hdx). assert (d = c) by congruence. subst d. by eapply IH. }
  destruct X; cbn [over_kids]; try done; f_equal; inversion HX; subst;
    match goal with H1 : h_nodes h !! ?j = Some ?n, H2 : h_nodes h !! ?j = Some ?m |- _ => assert (m = n) by congruence; subst m end; by apply G.
Qed.

(** A parentless node put below [p], before [y] or at the end. *)
Theorem C85_insert : forall E h h' r w X p c y x l k, wf_env E -> reachable h -> stands_for E h r X -> sole_path h r w p ->
  node_type_of h p <> Ok NAttribute -> insert_before p c y h = (h', Ok c) -> parent_node h c = Ok None -> ~ at_or_below h c p ->
  stands_for E h c x -> child_nodes h p = Ok l -> place_of y l k ->
  stands_for E h' r (edit w (over_kids (put_at k x)) X).
Proof.
  intros E h h' r w X p c y x l k HE Hr HX Hs Hna H Hpc Hcy Hx Hl Hk. pose proof (reachable_inv h Hr) as HI.
  destruct (insert_before_inv h h' p c y (Ok c) HI H ltac:(done)) as (np & nc & Hp & Hc & [(e & He & _)|(_ & h1 & np1 & nc1 & k' & Hto & Hp1 & Hc1 & Hne & Hh' & Hle & Hpos & Hal & _)]); [done|].
  assert (Hct : n_type nc <> NAttribute) by (intros Ht; rewrite Ht in Hal; by destruct (n_type np)).
  assert (Hpt : n_type np <> NAttribute) by (intros Ht; apply Hna; unfold node_type_of; by rewrite (get_node_some _ _ _ Hp); cbn; rewrite Ht).
  assert (Hup : upgrade h (n_parent nc) = None).
  { unfold parent_node in Hpc. rewrite (get_node_some _ _ _ Hc) in Hpc. cbn in Hpc. unfold is_type in Hpc. destruct (type_eqb (n_type nc) NAttribute) eqn:Et; [|congruence].
    exfalso. apply Hct. by destruct (n_type nc). }
  destruct Hto as [_|q nq kq Hup' _ _ _]; [|congruence].
  assert (np1 = np) by congruence. assert (nc1 = nc) by congruence. subst np1 nc1.
  apply child_nodes_get in Hl as (np1 & Hp2 & <-). assert (np1 = np) by congruence. subst np1.
  assert (k' = k) as ->. { destruct y as [y|]; cbn in Hk; [|congruence]. apply position_first in Hk. congruence. }
  assert (C : changed_at E p h h').
  { eapply (changed_by E h (OInsertBefore p c y)); [done|done| |by intros j []|done|done| | |].
    - cbn. unfold out, bind. rewrite H. reflexivity.
    - intros Ht. by rewrite Ht in Hal.
    - cbn. intros j f n Hn [[-> [->|(n' & Hn' & Hq)]]|[-> ->]]; [by right|exfalso|by left].
      assert (n' = nc) by congruence. subst n'. rewrite Hq in Hup. unfold upgrade, alive in Hup. by rewrite Hn in Hup.
    - left. subst h'. unfold node_value, attached. rewrite (get_node_some _ _ _ Hp), (get_node_some _ p (set_children (take k (n_children np) ++ c :: drop k (n_children np)) np)) by (by rewrite lookup_upd). done. }
  eapply stands_edit; [exact C| |exact Hs|exact HX]. intros P HP.
  eapply (stands_kids E h h' p np); [exact C|exact HP|exact Hp|subst h'; unfold attached; by rewrite lookup_upd|done..|].
  intros ks Hks. cbn [set_children n_children].
  assert (G : Forall2 (stands_for E h') (n_children np) ks).
  { eapply kids_same with (l := n_children np); [|done|exact Hks]. apply Forall_forall. intros z _ i Hz Hi. eapply stands_outside; [done..|]. by eapply sole_children. }
  apply Forall2_app; [by apply Forall2_take|]. constructor; [by eapply stands_outside|by apply Forall2_drop].
Qed.
Print Assumptions C85_insert.
Theorem C85_append : forall E h h' r w X p c x, wf_env E -> reachable h -> stands_for E h r X -> sole_path h r w p ->
  node_type_of h p <> Ok NAttribute -> append_child p c h = (h', Ok c) -> parent_node h c = Ok None -> ~ at_or_below h c p ->
  stands_for E h c x -> stands_for E h' r (edit w (over_kids (fun ks => ks ++ [x])) X).
Proof.
  intros E h h' r w X p c x HE Hr HX Hs Hna H Hpc Hcy Hx. pose proof (reachable_inv h Hr) as HI.
  unfold append_child in H.
  destruct (insert_before_inv h h' p c None (Ok c) HI H ltac:(done)) as (np & nc & Hp & _).
  pose proof (C85_insert E h h' r w X p c None x (n_children np) (length (n_children np)) HE Hr HX Hs Hna H Hpc Hcy Hx (child_nodes_some _ _ _ Hp) eq_refl) as G.
  erewrite (edit_at E h p w); [exact G|exact (proj1 Hs)|exact HX|]. intros P HP. destruct P; cbn [over_kids]; try done; f_equal; inversion HP; subst; match goal with H1 : h_nodes h !! ?j = Some ?n, H2 : h_nodes h !! ?j = Some ?m, F : Forall2 _ (n_children ?n) ?l |- _ =>
    assert (n = m) by congruence; subst n; apply Forall2_length in F; unfold put_at; rewrite F, firstn_all, drop_all; reflexivity end.
Qed.
Print Assumptions C85_append.

(** A child of [p] taken out. *)
Theorem C85_remove : forall E h h' r w X p c l k, wf_env E -> reachable h -> stands_for E h r X -> sole_path h r w p ->
  node_type_of h p <> Ok NAttribute -> remove_child p c h = (h', Ok c) -> child_nodes h p = Ok l -> first_at c l k ->
  stands_for E h' r (edit w (over_kids (cut_at k)) X).
Proof.
  intros E h h' r w X p c l k HE Hr HX Hs Hna H Hl Hk. pose proof (reachable_inv h Hr) as HI.
  destruct (remove_child_inv h h' p c (Ok c) HI H ltac:(done)) as (np & Hp & [(_ & _ & He)|(nc & k' & Hc & Hpos & Hne & Hh' & _)]); [done|].
  assert (Hpt : n_type np <> NAttribute) by (intros Ht; apply Hna; unfold node_type_of; by rewrite (get_node_some _ _ _ Hp); cbn; rewrite Ht).
  apply child_nodes_get in Hl as (np1 & Hp2 & <-). assert (np1 = np) by congruence. subst np1.
  apply position_first in Hk. assert (k' = k) by congruence. subst k'.
  assert (Hat : h_nodes h' !! p = Some (set_children (delete k (n_children np)) np)) by (subst h'; unfold removed; rewrite lookup_upd_ne by done; by rewrite lookup_upd).
  assert (C : changed_at E p h h').
  { eapply (changed_by E h (ORemoveChild p c)); [done|done| |by intros j []|done|done| | |].
    - cbn. unfold out, bind. rewrite H. reflexivity.
    - intros Ht. destruct (inv_node h HI p np Hp) as (_ & _ & _ & [Hch _] & _). apply position_lookup in Hpos as [Hpos _].
      destruct (Hch c) as (_ & s & _ & [Hal _]); [by eapply elem_of_list_In, elem_of_list_lookup_2|]. cbn in Hal. by rewrite Ht in Hal.
    - cbn. intros j f n Hn [[-> ->]|[-> ->]]; [by right|by left].
    - left. unfold node_value. by rewrite (get_node_some _ _ _ Hp), (get_node_some _ _ _ Hat). }
  eapply stands_edit; [exact C| |exact Hs|exact HX]. intros P HP.
  eapply (stands_kids E h h' p np); [exact C|exact HP|exact Hp|exact Hat|done..|].
  intros ks Hks. cbn [set_children n_children]. apply list_cut.
  eapply kids_same with (l := n_children np); [|done|exact Hks]. apply Forall_forall. intros z _ i Hz Hi. eapply stands_outside; [done..|]. by eapply sole_children.
Qed.
Print Assumptions C85_remove.

(** The text of [i] changed, whichever way and however the call ends. *)
Lemma stands_alive E h i x : stands_for E h i x -> exists n, h_nodes h !! i = Some n.
Proof. intros Hx. inversion Hx as [| | | | | | | | | |? ? (? & ? & ? & _)| |]; subst; eauto. Qed.
Lemma path_alive h i w p n : Inv h -> path h i w p -> h_nodes h !! i = Some n -> exists m, h_nodes h !! p = Some m.
Proof.
  intros HI H. revert n. induction H as [|i l k c w p Hl Hk _ IH]; intros n Hn; [eauto|]. rewrite (child_nodes_some _ _ _ Hn) in Hl. injection Hl as <-.
  destruct (inv_node h HI i n Hn) as (_ & _ & _ & [Hch _] & _). destruct (Hch c) as (_ & s & Hs & _); [by eapply elem_of_list_In, elem_of_list_lookup_2|].
  apply info_inv in Hs as (m & Hm & _). by eapply IH.
Qed.
Theorem C85_text : forall E h o h' res r w X i v, wf_env E -> reachable h -> stands_for E h r X -> sole_path h r w i ->
  node_type_of h i <> Ok NAttribute -> node_type_of h i <> Ok NDocumentType -> edits_text o i -> exec E o h = (h', res) ->
  outside_attributes h i -> node_value h' i = Ok v -> stands_for E h' r (edit w (with_value v) X).
Proof.
  intros E h o h' res r w X i v HE Hr HX Hs Ht1 Ht2 Ho H Hout Hv.
  assert (Wr : forall j f, writes h o j f -> f = PValue /\ j = i) by (intros j f; destruct o; cbn in Ho; try done; subst; done).
  assert (Hdr : forall j, ~ drops o j) by (intros j; destruct o; cbn in Ho; try done; by intros []).
  destruct (stands_alive _ _ _ _ HX) as (nr & Hnr). destruct (path_alive h r w i nr (reachable_inv h Hr) (proj1 Hs) Hnr) as (n & Hn).
  assert (Hty : node_type_of h i = Ok (n_type n)) by (unfold node_type_of; by rewrite (get_node_some _ _ _ Hn)).
  destruct (C63_locality E h o h' res HE Hr H i n Hn (Hdr i)) as (n' & Hn' & E1 & E2 & _ & Hf).
  assert (Hn1 : n_children n' = n_children n) by (destruct (Hf PChildren) as [W|S]; [by destruct (Wr _ _ W)|exact S]).
  assert (Hn2 : n_ext n' = n_ext n) by (destruct (Hf PMaps) as [W|S]; [by destruct (Wr _ _ W)|exact S]).
  assert (C : changed_at E i h h').
  { eapply (changed_by E h o h' res i n); try done; [congruence..| |by right]. intros j f m _ W. destruct (Wr _ _ W) as [-> ->]. by right. }
  unfold node_value in Hv. rewrite (get_node_some _ _ _ Hn') in Hv. injection Hv as <-.
  eapply stands_edit; [exact C| |exact Hs|exact HX]. intros P HP. eapply (stands_value E h h' i n n'); [done..|]. intros c. by eapply sole_children.
Qed.
Print Assumptions C85_text.

(** Where links are two-way and without cycles there is only one way down. *)
Theorem C85_sole : forall h r w p, reachable h -> two_way h -> acyclic h -> node_type_of h r <> Ok NAttribute -> path h r w p -> sole_path h r w p.
Proof. intros h r w p Hr. apply two_way_sole. by apply reachable_inv. Qed.
Print Assumptions C85_sole.


(** ** A copy of a document is the same document *)
Lemma added_changed E h h' : Inv h -> only_added h h' -> changed_at E (h_next h) h h'.
Proof.
  intros HI (Hle & Ho & Hn).
  assert (K : kept h h').
  { split.
    - intros j n Hj. exists n. split_and!; try done. by apply Ho.
    - intros j Hj Hd. destruct (h_nodes h' !! j) as [n|] eqn:Hj'; [|done]. rewrite (Hn j n Hj' Hj) in Hd. done.
    - intros a n c m m' _ _ _ Hm Hm'. rewrite (Ho c m Hm) in Hm'. congruence. }
  split.
  - intros i n _ Hi. exists n. split_and!; try done. by apply Ho.
  - intros a q (n & v & H1 & H2 & H3 & H4 & H5). exists n, v. split_and!; try done; [by apply Ho|]. by rewrite (kept_value E h h' a n K HI H1 H2).
  - intros i t Ht Hb. apply below_path in Hb as (w & Hw).
    assert (Hnt : exists nt, h_nodes h !! t = Some nt).
    { unfold doc_type in Ht. destruct (h_nodes h !! i) as [n|] eqn:Hi; [|unfold get_node in Ht; by rewrite Hi in Ht].
      rewrite (get_node_some _ _ _ Hi) in Ht. cbn in Ht. destruct (inv_node h HI i n Hi) as (Hex & _). unfold ext_ok in Hex.
      destruct (n_ext n) as [| |? dt ? ?| | | |]; try discriminate. injection Ht as ->. destruct Hex as (_ & Hex & _).
      destruct (Hex t eq_refl) as (st & Hst & _). apply info_inv in Hst as (nt & Hty & _). eauto. }
    destruct Hnt as (nt & Hnt). destruct (path_alive h t w _ nt HI Hw Hnt) as (m & Hm). apply (inv_lt h HI) in Hm. lia.
Qed.
Lemma added_stands E h h' i x : Inv h -> only_added h h' -> stands_for E h i x -> stands_for E h' i x.
Proof.
  intros HI Ha Hx. eapply stands_outside; [by apply added_changed|done|]. intros Hb. apply below_path in Hb as (w & Hw).
  destruct (stands_alive _ _ _ _ Hx) as (n & Hn). destruct (path_alive h i w _ n HI Hw Hn) as (m & Hm). apply (inv_lt h HI) in Hm. lia.
Qed.
Definition root_of (t : tree) : id := match t with Tr i _ => i end.
Lemma tree_children h i ts n : tree_of h i (Tr i ts) -> h_nodes h !! i = Some n -> n_children n = map root_of ts /\ Forall2 (tree_of h) (n_children n) ts.
Proof.
  intros H Hn. inversion H as [? cs ? Hc F]; subst. rewrite (child_nodes_some _ _ _ Hn) in Hc. injection Hc as ->. split; [|done].
  clear - F. induction F as [|c t cs ts Hc _ IH]; [done|]. cbn. rewrite <- IH. by inversion Hc.
Qed.
Lemma copied_text h h' ts ts' : Forall2 (copied h h') ts ts' -> attr_text h' (map root_of ts') = attr_text h (map root_of ts).
Proof.
  induction 1 as [|t t' ts ts' Hc _ IH]; [done|]. cbn [map attr_text]. rewrite IH.
  inversion Hc as [i j us us' n n' H1 H2 (E1 & _ & E3 & _) _ _]; subst. cbn [root_of]. rewrite (get_node_some _ _ _ H1), (get_node_some _ _ _ H2). cbn [rbind]. unfold is_type. by rewrite E1, E3.
Qed.
Lemma copied_attr E h h' i j t t' q : Inv h -> only_added h h' -> tree_of h i t -> tree_of h' j t' -> copied h h' t t' ->
  attr_stands_for E h i q -> attr_stands_for E h' j q.
Proof.
  intros HI Ha Ht Ht' Hc (n & v & Hn & Hty & Hq & Hv & He).
  inversion Hc as [i0 j0 us us' n0 n' H1 H2 (E1 & E2 & E3 & E4 & E5) _ Hus]; subst.
  assert (i0 = i) by (by inversion Ht). assert (j0 = j) by (by inversion Ht'). subst i0 j0. assert (n0 = n) by congruence. subst n0.
  exists n', v. split; [done|]. split; [congruence|]. split; [congruence|]. split; [|done]. rewrite <- Hv.
  destruct (tree_children _ _ _ _ Ht Hn) as [C1 _]. destruct (tree_children _ _ _ _ Ht' H2) as [C2 _].
  pose proof (added_changed E h h' HI Ha) as C. destruct Ha as (Hle & Ho & Hnew).
  assert (K : kept h h').
  { split.
    - intros k m Hk. exists m. split_and!; try done. by apply Ho.
    - intros k Hk Hd. destruct (h_nodes h' !! k) as [m|] eqn:Hk'; [|done]. rewrite (Hnew k m Hk' Hk) in Hd. done.
    - intros a m c m1 m2 _ _ _ Hm Hm'. rewrite (Ho c m1 Hm) in Hm'. congruence. }
  unfold attr_value. rewrite (get_node_some _ _ _ Hn), (get_node_some _ _ _ H2). cbn [rbind]. rewrite C1, C2, (copied_text _ _ _ _ Hus).
  assert (En : is_nil (map root_of us') = is_nil (map root_of us)) by (clear - Hus; by inversion Hus). rewrite En. destruct (is_nil (map root_of us)); [done|].
  destruct (attr_text h (map root_of us)); cbn [rbind]; [|done..].
  rewrite (normalize_ext E (resolve_entity h' j) (resolve_entity h i) false); [reflexivity|]. intros s.
  rewrite <- (kept_resolve h h' i n s K HI Hn Hty). unfold resolve_entity.
  rewrite (get_node_some _ _ _ H2), (get_node_some _ _ _ (Ho i n Hn)). cbn [rbind]. rewrite E1, E4, Hty. reflexivity.
Qed.
Lemma copied_stands E h h' : Inv h -> only_added h h' -> forall x i j t t', stands_for E h i x ->
  tree_of h i t -> tree_of h' j t' -> copied h h' t t' -> stands_for E h' j x.
Proof.
  intros HI Ha. pose proof (added_changed E h h' HI Ha) as C.
  set (Q := fun x => forall i j t t', stands_for E h i x -> tree_of h i t -> tree_of h' j t' -> copied h h' t t' -> stands_for E h' j x).
  assert (L : forall ks, Forall Q ks -> forall cs cs' ts ts', Forall2 (stands_for E h) cs ks -> Forall2 (tree_of h) cs ts -> Forall2 (tree_of h') cs' ts' ->
    Forall2 (copied h h') ts ts' -> Forall2 (stands_for E h') cs' ks).
  { induction 1 as [|k ks Hk _ IH]; intros cs cs' ts ts' F1 F2 F3 F4.
    - inversion F1; subst. inversion F2; subst. inversion F4; subst. inversion F3; subst. constructor.
    - inversion F1; subst. inversion F2; subst. inversion F4; subst. inversion F3; subst. constructor; [by eapply Hk|by eapply IH]. }
  assert (G : forall i j t t' x, stands_for E h i x -> tree_of h i t -> tree_of h' j t' -> copied h h' t t' ->
    exists n n' ts ts', h_nodes h !! i = Some n /\ h_nodes h' !! j = Some n' /\ looks_like n n' /\ Forall2 (tree_of h) (n_children n) ts /\
      Forall2 (tree_of h') (n_children n') ts' /\ Forall2 (copied h h') ts ts').
  { intros i j t t' x Hx Ht Ht' Hc. inversion Hc as [i0 j0 us us' n n' H1 H2 H3 _ Hus]; subst.
    assert (i0 = i) by (by inversion Ht). assert (j0 = j) by (by inversion Ht'). subst i0 j0.
    destruct (tree_children _ _ _ _ Ht H1) as [_ C1]. destruct (tree_children _ _ _ _ Ht' H2) as [_ C2]. exists n, n', us, us'. done. }
  assert (A : forall i j n n' attrs, h_nodes h !! i = Some n -> h_nodes h' !! j = Some n' -> looks_like n n' -> attributes h i = Ok attrs -> attributes h' j = Ok attrs).
  { intros i j n n' attrs H1 H2 (E1 & _ & _ & _ & E5). unfold attributes. rewrite (get_node_some _ _ _ H1), (get_node_some _ _ _ H2). cbn. unfold is_type. by rewrite E1, E5. }
  assert (D : forall i j n n' d, h_nodes h !! i = Some n -> h_nodes h' !! j = Some n' -> looks_like n n' -> xml_declaration h i = Ok d -> xml_declaration h' j = Ok d).
  { intros i j n n' d H1 H2 (E1 & _ & _ & _ & E5). unfold xml_declaration. rewrite (get_node_some _ _ _ H1), (get_node_some _ _ _ H2). cbn. by rewrite E5. }
  assert (T : forall i j n n' d, h_nodes h !! i = Some n -> h_nodes h' !! j = Some n' -> looks_like n n' -> doc_type h i = Ok d -> doc_type h' j = Ok d).
  { intros i j n n' d H1 H2 (E1 & _ & _ & _ & E5). unfold doc_type. rewrite (get_node_some _ _ _ H1), (get_node_some _ _ _ H2). cbn. by rewrite E5. }
  apply (xml_ind' Q).
  - intros nm a ks IH i j t t' Hx Ht Ht' Hc. destruct (G i j t t' _ Hx Ht Ht' Hc) as (n & n' & ts & ts' & Hn & Hn' & Hl & F1 & F2 & F3). pose proof Hl as (E1 & E2 & E3 & E4 & E5).
    inversion Hx as [? m attrs ? ? Hm Hty Hat Hav Hk| | | | | | | | | | | |]; subst. assert (m = n) by congruence. subst m. rewrite <- E2.
    eapply sf_element; [exact Hn'|congruence|by eapply (A i j)| |by eapply L].
    eapply Forall2_impl; [exact Hav|]. intros. by apply (ca_attr _ _ _ _ C).
  - intros d dt ks Hdt IH i j t t' Hx Ht Ht' Hc. destruct (G i j t t' _ Hx Ht Ht' Hc) as (n & n' & ts & ts' & Hn & Hn' & Hl & F1 & F2 & F3). pose proof Hl as (E1 & E2 & E3 & E4 & E5).
    inversion Hx as [| | | | | |? m ? ? Hm Hty Hd Hnt Hk|? m ? u y ? Hm Hty Hd Hnt Hu Hk| | | | |]; subst; assert (m = n) by congruence; subst m.
    + eapply sf_document; [exact Hn'|congruence|by eapply (D i j)|by eapply (T i j)|by eapply L].
    + eapply sf_document_typed; [exact Hn'|congruence|by eapply (D i j)|by eapply (T i j)|by eapply added_stands|by eapply L].
  - intros ks IH i j t t' Hx Ht Ht' Hc. destruct (G i j t t' _ Hx Ht Ht' Hc) as (n & n' & ts & ts' & Hn & Hn' & Hl & F1 & F2 & F3). pose proof Hl as (E1 & E2 & E3 & E4 & E5).
    inversion Hx as [| | | | | | | | |? m ? Hm Hty Hk| | |]; subst; assert (m = n) by congruence; subst m.
    eapply sf_fragment; [exact Hn'|congruence|by eapply L].
  - intros x. destruct x; try exact Logic.I; intros i j t t' Hx Ht Ht' Hc; destruct (G i j t t' _ Hx Ht Ht' Hc) as (n & n' & ts & ts' & Hn & Hn' & Hl & _); destruct Hl as (E1 & E2 & E3 & E4 & E5);
      inversion Hx; subst;
      lazymatch goal with
      | H : attr_stands_for _ _ _ _ |- _ => apply sf_attribute; by eapply (copied_attr E h h' i j)
      | _ => match goal with H : h_nodes h !! i = Some ?m |- _ => assert (m = n) by congruence; subst m end; rewrite <- ?E2, <- ?E3; econstructor; [exact Hn'|congruence..]
      end.
Qed.

(** A deep copy stands for the same document, and so does the original afterwards. *)
Theorem C85_clone : forall E h h' i j x, reachable h -> no_cycle_below h i -> stands_for E h i x -> clone_node true i h = (h', Ok j) ->
  stands_for E h' j x /\ stands_for E h' i x.
Proof.
  intros E h h' i j x Hr Hcy Hx Hc. pose proof (reachable_inv h Hr) as HI.
  assert (Hal : alive h i = true) by (apply alive_true; by eapply stands_alive).
  destruct (C37_deep h i Hr Hal Hcy) as (h1 & j1 & t & t' & Hc1 & Ht & Ht' & Hcp & Ha & _). rewrite Hc in Hc1. injection Hc1 as <- <-.
  split; [by eapply copied_stands|by eapply added_stands].
Qed.
Print Assumptions C85_clone.

(** ** Moving a node from one place to another *)
Lemma local_changed E h h' p np : Inv h -> h_nodes h !! p = Some np -> n_type np <> NAttribute -> n_type np <> NDocumentType ->
  (forall j n, h_nodes h !! j = Some n -> exists n', h_nodes h' !! j = Some n' /\ looks_like n n' /\ (j <> p -> n_children n' = n_children n)) ->
  (forall j, h_nodes h !! j = None -> h_nodes h' !! j = None) -> changed_at E p h h'.
Proof.
  intros HI Hp Ht1 Ht2 Ho Hn.
  assert (K : kept h h').
  { split.
    - intros j n Hj. destruct (Ho j n Hj) as (n' & Hn' & (E1 & E2 & E3 & E4 & E5) & Hc). exists n'. split_and!; try done.
      + intros Ht. apply Hc. intros ->. congruence.
      + unfold typed. by rewrite E5.
    - intros j _. apply Hn.
    - intros a n c m m' _ _ _ Hm Hm'. destruct (Ho c m Hm) as (m1 & Hm1 & (_ & _ & E3 & _) & _). congruence. }
  split.
  - intros j n Hj Hjn. destruct (Ho j n Hjn) as (n' & Hn' & (E1 & E2 & E3 & E4 & E5) & Hc). exists n'. split_and!; try done; [by apply Hc|by rewrite E5].
  - intros a q (n & v & H1 & H2 & H3 & H4 & H5). destruct (Ho a n H1) as (n' & Hn' & (E1 & E2 & _) & _). exists n', v.
    split_and!; [done|congruence|congruence| |done]. by rewrite (kept_value E h h' a n K HI H1 H2).
  - intros i t Ht Hb. unfold doc_type in Ht. destruct (h_nodes h !! i) as [n|] eqn:Hi; [|unfold get_node in Ht; by rewrite Hi in Ht].
    rewrite (get_node_some _ _ _ Hi) in Ht. cbn in Ht. destruct (inv_node h HI i n Hi) as (Hex & _). unfold ext_ok in Hex.
    destruct (n_ext n) as [| |? dt ? ?| | | |]; try discriminate. injection Ht as ->. destruct Hex as (_ & Hex & _).
    destruct (Hex t eq_refl) as (st & Hst & Htt). apply info_inv in Hst as (nt & Hty & <-). cbn in Htt.
    inversion Hb as [|? c ? (l & Hl & Hc) _]; subst; [congruence|]. rewrite (child_nodes_some h t nt Hty) in Hl. injection Hl as <-.
    destruct (inv_node h HI t nt Hty) as (_ & _ & _ & [Hch _] & _). destruct (Hch c Hc) as (_ & s & _ & [Hal _]). cbn in Hal. by rewrite Htt in Hal.
Qed.
Lemma attached_changed E h p c np nc k : Inv h -> h_nodes h !! p = Some np -> h_nodes h !! c = Some nc -> p <> c ->
  n_type np <> NAttribute -> n_type np <> NDocumentType -> changed_at E p h (attached h p c np nc k).
Proof.
  intros HI Hp Hc Hne H1 H2. eapply local_changed; [done..| |]; unfold attached.
  - intros j n Hj. destruct (decide (j = p)) as [->|Hjp]; [|destruct (decide (j = c)) as [->|Hjc]].
    + rewrite lookup_upd. assert (n = np) by congruence. subst n. eexists. split; [reflexivity|]. by split.
    + rewrite lookup_upd_ne, lookup_upd by congruence. assert (n = nc) by congruence. subst n. eexists. split; [reflexivity|]. by split.
    + rewrite !lookup_upd_ne by congruence. exists n. split; [done|]. by split.
  - intros j Hj. rewrite !lookup_upd_ne by congruence. done.
Qed.
Lemma attached_stands E h r w X p c np nc k x : Inv h -> stands_for E h r X -> sole_path h r w p -> h_nodes h !! p = Some np -> h_nodes h !! c = Some nc ->
  p <> c -> n_type np <> NAttribute -> n_type np <> NDocumentType -> ~ at_or_below h c p -> stands_for E h c x ->
  stands_for E (attached h p c np nc k) r (edit w (over_kids (put_at k x)) X).
Proof.
  intros HI HX Hs Hp Hc Hne H1 H2 Hcy Hx. pose proof (attached_changed E h p c np nc k HI Hp Hc Hne H1 H2) as C.
  eapply stands_edit; [exact C| |exact Hs|exact HX]. intros P HP.
  eapply (stands_kids E h _ p np); [exact C|exact HP|exact Hp|unfold attached; by rewrite lookup_upd|done..|].
  intros ks Hks. cbn [set_children n_children].
  assert (G : Forall2 (stands_for E (attached h p c np nc k)) (n_children np) ks).
  { eapply kids_same with (l := n_children np); [|done|exact Hks]. apply Forall_forall. intros z _ i Hz Hi. eapply stands_outside; [done..|]. by eapply sole_children. }
  apply Forall2_app; [by apply Forall2_take|]. constructor; [by eapply stands_outside|by apply Forall2_drop].
Qed.

(** Inserting a child of another node: it leaves its old place, then enters the new one.  Positions
    are those before the call; the way down to the new parent is the one after the removal. *)
Theorem C85_move : forall E h h1 h' r wq wp X q p c y x lq kq l k, wf_env E -> reachable h -> stands_for E h r X ->
  parent_node h c = Ok (Some q) -> q <> p -> node_type_of h q <> Ok NAttribute -> node_type_of h p <> Ok NAttribute ->
  remove_child q c h = (h1, Ok c) -> insert_before p c y h = (h', Ok c) ->
  sole_path h r wq q -> sole_path h1 r wp p -> child_nodes h q = Ok lq -> first_at c lq kq -> child_nodes h p = Ok l -> place_of y l k ->
  ~ at_or_below h c q -> ~ at_or_below h1 c p -> stands_for E h c x ->
  stands_for E h' r (edit wp (over_kids (put_at k x)) (edit wq (over_kids (cut_at kq)) X)).
Proof.
  intros E h h1 h' r wq wp X q p c y x lq kq l k HE Hr HX Hpc Hqp Htq Htp Hrem Hins Hsq Hsp Hlq Hkq Hl Hk Hcq Hcp Hx.
  pose proof (reachable_inv h Hr) as HI. pose proof (C85_remove E h h1 r wq X q c lq kq HE Hr HX Hsq Htq Hrem Hlq Hkq) as HX1.
  destruct (remove_child_inv h h1 q c (Ok c) HI Hrem ltac:(done)) as (nq & Hq & [(_ & _ & He)|(nc & k1 & Hc & Hpos & Hqc & Hh1 & _)]); [done|].
  destruct (insert_before_inv h h' p c y (Ok c) HI Hins ltac:(done)) as (np & nc' & Hp & Hc' & [(e & He & _)|(_ & h2 & np2 & nc2 & k2 & Hto & Hp2 & Hc2 & Hpc2 & Hh' & _ & Hpos2 & Hal & _)]); [done|].
  assert (nc' = nc) by congruence. subst nc'.
  assert (Hpt : n_type np <> NAttribute) by (intros Ht; apply Htp; unfold node_type_of; by rewrite (get_node_some _ _ _ Hp); cbn; rewrite Ht).
  assert (Hup : upgrade h (n_parent nc) = Some q).
  { unfold parent_node in Hpc. rewrite (get_node_some _ _ _ Hc) in Hpc. cbn in Hpc. destruct (is_type NAttribute nc); congruence. }
  assert (h2 = h1) as ->.
  { destruct Hto as [Hno|q' nq' k' Hup' Hq' _ Hpos']; [congruence|]. assert (q' = q) by congruence. subst q'. assert (nq' = nq) by congruence. subst nq'. congruence. }
  assert (HI1 : Inv h1).
  { apply reachable_inv. eapply (reach_step h (ORemoveChild q c)); [exact Hr|]. split; [done|]. eexists E, _. split; [done|]. split; [cbn; unfold out, bind; rewrite Hrem; reflexivity|done]. }
  assert (C1 : changed_at E q h h1).
  { eapply (changed_by E h (ORemoveChild q c)); [done|done| |by intros j []|exact Hq| | | |].
    - cbn. unfold out, bind. rewrite Hrem. reflexivity.
    - intros Ht. apply Htq. unfold node_type_of. by rewrite (get_node_some _ _ _ Hq); cbn; rewrite Ht.
    - intros Ht. destruct (inv_node h HI q nq Hq) as (_ & _ & _ & [Hch _] & _). apply position_lookup in Hpos as [Hpos _].
      destruct (Hch c) as (_ & s & _ & [Hal' _]); [by eapply elem_of_list_In, elem_of_list_lookup_2|]. cbn in Hal'. by rewrite Ht in Hal'.
    - cbn. intros j f n Hn [[-> ->]|[-> ->]]; [by right|by left].
    - left. assert (Hq1 : h_nodes h1 !! q = Some (set_children (delete k1 (n_children nq)) nq)) by (subst h1; unfold removed; rewrite lookup_upd_ne by done; by rewrite lookup_upd).
      unfold node_value. by rewrite (get_node_some _ _ _ Hq), (get_node_some _ _ _ Hq1). }
  assert (np2 = np) as ->.
  { subst h1. unfold removed in Hp2. rewrite !lookup_upd_ne in Hp2 by congruence. congruence. }
  apply child_nodes_get in Hl as (np1 & Hp3 & <-). assert (np1 = np) by congruence. subst np1.
  assert (k2 = k) as ->. { destruct y as [y|]; cbn in Hk; [|congruence]. apply position_first in Hk. congruence. }
  rewrite Hh'. eapply attached_stands; [exact HI1|exact HX1|exact Hsp|exact Hp2|exact Hc2|exact Hpc2|exact Hpt| |exact Hcp|].
  - intros Ht. by rewrite Ht in Hal.
  - by eapply stands_outside.
Qed.
Print Assumptions C85_move.

(** ** Examples *)
Definition ex_edit_ops : list op := ex_show_ops ++ [OCreateComment 0 (lit "n")].
Definition ex_edit : heap := default empty_heap (run env0 ex_edit_ops empty_heap).
Lemma ex_edit_reachable : reachable ex_edit.
Proof. apply (run0_reachable ex_edit_ops). by vm_compute. Qed.
Lemma ex_edit_stands : stands_for env0 ex_edit 1 ex_show_doc.
Proof. unfold ex_show_doc. show. Qed.
Lemma ex_edit_new : stands_for env0 ex_edit 10 (XmlComment (Some (lit "n"))).
Proof. show. Qed.
Lemma path_inv h i w p : path h i w p -> w = [] /\ i = p \/ exists l k c w0, w = k :: w0 /\ child_nodes h i = Ok l /\ l !! k = Some c /\ path h c w0 p.
Proof. intros H. inversion H as [|? l k c w0 ? Hl Hk Hw]; subst; [by left|]. right. by exists l, k, c, w0. Qed.
Ltac walk_paths :=
  repeat match goal with
  | H : path _ _ _ _ |- _ => let l := fresh in let k := fresh in let c := fresh in let w0 := fresh in let Hl := fresh in let Hk := fresh in let Hw := fresh in
      apply path_inv in H as [[-> H]|(l & k & c & w0 & -> & Hl & Hk & Hw)]; [first [discriminate H|reflexivity]|];
      vm_compute in Hl; injection Hl as <-; repeat (destruct k as [|k]; [injection Hk as <-|]); try discriminate Hk
  end.
Ltac go_down := first [apply path_here|eapply path_down; [by vm_compute|reflexivity|go_down]].
Lemma ex_edit_sole : sole_path ex_edit 1 [2] 8.
Proof. split; [go_down|]. intros w H. walk_paths. Qed.
Lemma ex_edit_sole_text : sole_path ex_edit 1 [2; 0] 9.
Proof. split; [go_down|]. intros w H. walk_paths. Qed.
Lemma ex_edit_loose : ~ at_or_below ex_edit 10 8.
Proof. intros (w & H)%below_path. walk_paths. Qed.
Definition ex_edited (o : op) : heap := (exec env0 o ex_edit).1.
(** Appending to the inner element, inserting before its text, emptying it, changing its text, copying. *)
Example C85_example : reachable ex_edit /\ stands_for env0 ex_edit 1 ex_show_doc /\ sole_path ex_edit 1 [2] 8 /\
  parent_node ex_edit 10 = Ok None /\ ~ at_or_below ex_edit 10 8 /\ stands_for env0 ex_edit 10 (XmlComment (Some (lit "n"))) /\
  (append_child 8 10 ex_edit).2 = Ok 10 /\
  to_string env0 (ex_edited (OAppendChild 8 10)) 1 = Ok (lit "<a k=""1&#60;2"" l=""x"">1 &#38; 2<!--a&#62;b--><b>t<!--n--></b></a>") /\
  to_string env0 (ex_edited (OInsertBefore 8 10 (Some 9))) 1 = Ok (lit "<a k=""1&#60;2"" l=""x"">1 &#38; 2<!--a&#62;b--><b><!--n-->t</b></a>") /\
  to_string env0 (ex_edited (ORemoveChild 8 9)) 1 = Ok (lit "<a k=""1&#60;2"" l=""x"">1 &#38; 2<!--a&#62;b--><b></b></a>").
Proof.
  split; [exact ex_edit_reachable|]. split; [exact ex_edit_stands|]. split; [exact ex_edit_sole|]. split; [by vm_compute|].
  split; [exact ex_edit_loose|]. split; [exact ex_edit_new|]. by vm_compute.
Qed.
(** What the abstract documents become. *)
Example C85_edit_example : edit [2] (over_kids (put_at 0 (XmlComment (Some (lit "n"))))) ex_show_doc =
  XmlElement (lit "a") [(lit "k", lit "1<2"); (lit "l", lit "x")]
    [XmlText (Some (lit "1 & 2")); XmlComment (Some (lit "a>b")); XmlElement (lit "b") [] [XmlComment (Some (lit "n")); XmlText (Some (lit "t"))]] /\
  edit [2] (over_kids (cut_at 0)) ex_show_doc =
  XmlElement (lit "a") [(lit "k", lit "1<2"); (lit "l", lit "x")]
    [XmlText (Some (lit "1 & 2")); XmlComment (Some (lit "a>b")); XmlElement (lit "b") [] []] /\
  edit [2; 0] (with_value (Some (lit "u"))) ex_show_doc =
  XmlElement (lit "a") [(lit "k", lit "1<2"); (lit "l", lit "x")]
    [XmlText (Some (lit "1 & 2")); XmlComment (Some (lit "a>b")); XmlElement (lit "b") [] [XmlText (Some (lit "u"))]].
Proof. by vm_compute. Qed.
Example C85_text_example : sole_path ex_edit 1 [2; 0] 9 /\ node_type_of ex_edit 9 = Ok NText /\ outside_attributes ex_edit 9 /\
  (exec env0 (OReplaceData 9 0 1 (lit "u")) ex_edit).2 = Ok None /\ node_value (ex_edited (OReplaceData 9 0 1 (lit "u"))) 9 = Ok (Some (lit "u")) /\
  to_string env0 (ex_edited (OReplaceData 9 0 1 (lit "u"))) 1 = Ok (lit "<a k=""1&#60;2"" l=""x"">1 &#38; 2<!--a&#62;b--><b>u</b></a>").
Proof.
  split; [exact ex_edit_sole_text|]. split; [by vm_compute|]. split; [|by vm_compute].
  intros a l Ht Hl Hin. apply type_of_get in Ht as (n & Hn & Ht). rewrite (child_nodes_some _ _ _ Hn) in Hl. injection Hl as <-.
  pose proof (inv_lt ex_edit (reachable_inv _ ex_edit_reachable) a n Hn) as Hlt. change (h_next ex_edit) with 11 in Hlt.
  do 11 (destruct a as [|a]; [vm_compute in Hn; injection Hn as <-; cbn in Ht, Hin; try discriminate; intuition discriminate|]). lia.
Qed.
(** Moving the comment into the inner element. *)
Definition ex_move1 : heap := ex_edited (ORemoveChild 1 7).
Example C85_move_example : parent_node ex_edit 7 = Ok (Some 1) /\ (remove_child 1 7 ex_edit).2 = Ok 7 /\ (insert_before 8 7 (Some 9) ex_edit).2 = Ok 7 /\
  sole_path ex_edit 1 [] 1 /\ sole_path ex_move1 1 [1] 8 /\ ~ at_or_below ex_edit 7 1 /\ ~ at_or_below ex_move1 7 8 /\
  stands_for env0 ex_edit 7 (XmlComment (Some (lit "a>b"))) /\
  to_string env0 (ex_edited (OInsertBefore 8 7 (Some 9))) 1 = Ok (lit "<a k=""1&#60;2"" l=""x"">1 &#38; 2<b><!--a&#62;b-->t</b></a>").
Proof.
  split; [by vm_compute|]. split; [by vm_compute|]. split; [by vm_compute|].
  split; [split; [go_down|]; intros w H; walk_paths|]. split; [split; [go_down|]; intros w H; walk_paths|].
  split; [intros (w & H)%below_path; walk_paths|]. split; [intros (w & H)%below_path; walk_paths|]. split; [show|by vm_compute].
Qed.
Example C85_clone_example : (clone_node true 1 ex_edit).2 = Ok 15 /\ no_cycle_below ex_edit 1 /\
  to_string env0 (ex_edited (OClone true 1)) 15 = to_string env0 ex_edit 1.
Proof.
  split; [by vm_compute|]. split; [|by vm_compute]. eapply (tree_no_cycle ex_edit 1 (Tr 1 [Tr 6 []; Tr 7 []; Tr 8 [Tr 9 []]])).
  repeat (first [constructor|eapply tree_intro; [by vm_compute|]]).
Qed.

(** ** Text that is also part of an attribute value *)
Definition ex_both_ops : list op :=
  [OCreateDocument None None None options_new; OCreateElement 0 (lit "a"); OSetAttribute 1 (lit "k") (lit "v"); OAppendChild 1 2].
Definition ex_both : heap := default empty_heap (run env0 ex_both_ops empty_heap).
Definition ex_both' : heap := (exec env0 (OAppendData 2 (lit "w")) ex_both).1.
Definition ex_both_doc (v t : str) : xml := XmlElement (lit "a") [(lit "k", v)] [XmlText (Some t)].
Theorem C85_text_attribute_refuted : reachable ex_both /\ stands_for env0 ex_both 1 (ex_both_doc (lit "v") (lit "v")) /\ sole_path ex_both 1 [0] 2 /\
  (exec env0 (OAppendData 2 (lit "w")) ex_both).2 = Ok None /\ node_value ex_both' 2 = Ok (Some (lit "vw")) /\
  ~ stands_for env0 ex_both' 1 (edit [0] (with_value (Some (lit "vw"))) (ex_both_doc (lit "v") (lit "v"))).
Proof.
  split; [apply (run0_reachable ex_both_ops); by vm_compute|]. split; [unfold ex_both_doc; show|]. split; [split; [go_down|]; intros w H; walk_paths|].
  split; [by vm_compute|]. split; [by vm_compute|]. intros H.
  assert (G : stands_for env0 ex_both' 1 (ex_both_doc (lit "vw") (lit "vw"))) by (unfold ex_both_doc; show).
  pose proof (stands_fun _ _ _ _ _ H G) as K. by vm_compute in K.
Qed.
Print Assumptions C85_text_attribute_refuted.
