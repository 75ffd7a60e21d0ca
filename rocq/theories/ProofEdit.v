(** * ProofEdit: nodes that are not changed still stand for the same document *)
From Verif Require Import SpecEdit ProofInv ProofSteps ProofShow ProofElem ProofFrame PropFrame ProofOps.

Lemma type_of_get h i t : node_type_of h i = Ok t -> exists n, h_nodes h !! i = Some n /\ n_type n = t.
Proof. unfold node_type_of, get_node. destruct (h_nodes h !! i) as [n|]; [|done]. intros [= <-]. eauto. Qed.
Lemma child_nodes_get h i l : child_nodes h i = Ok l -> exists n, h_nodes h !! i = Some n /\ n_children n = l.
Proof. unfold child_nodes, get_node. destruct (h_nodes h !! i) as [n|]; [|done]. intros [= <-]. eauto. Qed.
Lemma child_nodes_some h i n : h_nodes h !! i = Some n -> child_nodes h i = Ok (n_children n).
Proof. unfold child_nodes, get_node. by intros ->. Qed.

(** ** Attribute values *)
Definition typed (n : node) :=
  (match n_ext n with XDocument _ dt _ _ => dt | _ => None end,
   match n_ext n with XDocumentType es _ _ _ _ => es | _ => [] end).
Record kept (h h' : heap) : Prop := {
  k_old : forall j n, h_nodes h !! j = Some n -> exists n', h_nodes h' !! j = Some n' /\ n_type n' = n_type n /\ n_owner n' = n_owner n /\
            (n_type n = NAttribute -> n_children n' = n_children n) /\ typed n' = typed n;
  k_none : forall j, (j < h_next h)%nat -> h_nodes h !! j = None -> h_nodes h' !! j = None;
  k_text : forall a n c m m', h_nodes h !! a = Some n -> n_type n = NAttribute -> In c (n_children n) ->
            h_nodes h !! c = Some m -> h_nodes h' !! c = Some m' -> n_value m' = n_value m }.

Lemma kept_text h h' l : kept h h' -> (forall c, In c l -> exists m m', h_nodes h !! c = Some m /\ h_nodes h' !! c = Some m' /\ n_type m' = n_type m /\ n_value m' = n_value m) ->
  attr_text h' l = attr_text h l.
Proof.
  intros Hk. induction l as [|c l IH]; intros Hl; [done|]. cbn. destruct (Hl c) as (m & m' & H1 & H2 & H3 & H4); [by left|].
  unfold get_node. rewrite H1, H2. cbn. rewrite IH by (intros; apply Hl; by right). unfold is_type. by rewrite H3, H4.
Qed.
Lemma kept_resolve h h' i n s : kept h h' -> Inv h -> h_nodes h !! i = Some n -> n_type n = NAttribute -> resolve_entity h' i s = resolve_entity h i s.
Proof.
  intros Hv HI Hn Ht. destruct (k_old _ _ Hv i n Hn) as (n' & Hn' & Ht' & Ho' & _ & _).
  unfold resolve_entity. rewrite (get_node_some _ _ _ Hn), (get_node_some _ _ _ Hn'). cbn [rbind]. rewrite Ht', Ht, Ho'.
  destruct (owner_some h i n HI Hn ltac:(congruence) ltac:(congruence)) as (d & Ho & Hlt & Hdt). rewrite Ho. unfold upgrade, alive.
  destruct (h_nodes h !! d) as [nd|] eqn:Hd; [|by rewrite (k_none _ _ Hv d Hlt Hd)].
  destruct (k_old _ _ Hv d nd Hd) as (nd' & Hd' & Htd & _ & _ & Hvd). injection Hvd as Hdt' _. rewrite Hd'.
  unfold doc_type. rewrite (get_node_some _ _ _ Hd), (get_node_some _ _ _ Hd'). cbn [rbind]. unfold is_type at 1 3. rewrite Htd.
  destruct (type_eqb (n_type nd) NDocument); [|done]. rewrite Hdt'.
  destruct (match n_ext nd with XDocument _ x _ _ => x | _ => None end) as [t|] eqn:Hx; [|done].
  destruct (inv_node h HI d nd Hd) as (Hex & _). unfold ext_ok in Hex. destruct (n_ext nd) as [| |? dt ? ?| | | |]; try done. subst dt.
  destruct Hex as (_ & Hex & _). destruct (Hex t eq_refl) as (st & Hst & Htt). apply info_inv in Hst as (nt & Hnt & <-).
  destruct (k_old _ _ Hv t nt Hnt) as (nt' & Hnt' & Ht1 & _ & _ & Hvt). injection Hvt as _ Hes.
  cbn [rbind]. rewrite (get_node_some _ _ _ Hnt), (get_node_some _ _ _ Hnt'). cbn [rbind]. unfold is_type. rewrite Ht1. cbn in Htt. rewrite Htt. cbn.
  destruct (inv_node h HI t nt Hnt) as (Hex' & _). unfold ext_ok in Hex'.
  destruct (n_ext nt) as [| | |es ns p1 p2 p3| | |] eqn:Hxt; try (destruct Hex'; congruence); try (rewrite Htt in Hex'; done).
  destruct Hex' as (_ & -> & ->).
  destruct (unwrap_res (name_from_str s)); cbn; try done. destruct (n_ext nt'); try done. by subst.
Qed.
Lemma kept_value E h h' i n : kept h h' -> Inv h -> h_nodes h !! i = Some n -> n_type n = NAttribute -> attr_value E h' i = attr_value E h i.
Proof.
  intros Hv HI Hn Ht. destruct (k_old _ _ Hv i n Hn) as (n' & Hn' & _ & _ & Hc' & _). specialize (Hc' Ht).
  unfold attr_value. rewrite (get_node_some _ _ _ Hn), (get_node_some _ _ _ Hn'). cbn [rbind]. rewrite Hc'. destruct (is_nil (n_children n)); [done|].
  rewrite (kept_text h h' _ Hv).
  2:{ intros c Hc. destruct (inv_node h HI i n Hn) as (_ & _ & _ & [Hch _] & _).
      destruct (Hch c Hc) as (_ & s & Hs & _). apply info_inv in Hs as (m & Hm & _). destruct (k_old _ _ Hv c m Hm) as (m' & Hm' & Htm & _).
      exists m, m'. split_and!; [done..|]. exact (k_text _ _ Hv i n c m m' Hn Ht Hc Hm Hm'). }
  destruct (attr_text h (n_children n)); cbn [rbind]; [|done..].
  rewrite (normalize_ext E (resolve_entity h' i) (resolve_entity h i) false); [reflexivity|]. intros s. by eapply kept_resolve.
Qed.
#[local] Opaque attr_value.

(** ** Only [p] shows a change *)
(** What is shown of the rest of a node. *)
Definition shown (x : extension) : extension :=
  match x with
  | XElement a _ => XElement a []
  | XDocument d t _ o => XDocument d t [] o
  | XAttribute _ => XAttribute None
  | x => x
  end.
Record changed_at (E : env) (p : id) (h h' : heap) : Prop := {
  ca_old : forall i n, i <> p -> h_nodes h !! i = Some n -> exists n', h_nodes h' !! i = Some n' /\ n_type n' = n_type n /\ n_name n' = n_name n /\
             n_value n' = n_value n /\ n_children n' = n_children n /\ shown (n_ext n') = shown (n_ext n);
  ca_attr : forall a q, attr_stands_for E h a q -> attr_stands_for E h' a q;
  ca_type : forall i t, doc_type h i = Ok (Some t) -> ~ at_or_below h t p }.

Lemma shown_attributes h h' i n n' attrs : h_nodes h !! i = Some n -> h_nodes h' !! i = Some n' -> n_type n' = n_type n -> shown (n_ext n') = shown (n_ext n) ->
  attributes h i = Ok attrs -> attributes h' i = Ok attrs.
Proof.
  intros H1 H2 H3 H4. unfold attributes. rewrite (get_node_some _ _ _ H1), (get_node_some _ _ _ H2). cbn. unfold is_type. rewrite H3.
  intros [= <-]. f_equal. destruct (type_eqb _ _); [|done]. destruct (n_ext n), (n_ext n'); cbn in H4; congruence.
Qed.
Lemma shown_decl h h' i n n' d : h_nodes h !! i = Some n -> h_nodes h' !! i = Some n' -> shown (n_ext n') = shown (n_ext n) ->
  xml_declaration h i = Ok d -> xml_declaration h' i = Ok d.
Proof.
  intros H1 H2 H4. unfold xml_declaration. rewrite (get_node_some _ _ _ H1), (get_node_some _ _ _ H2). cbn.
  intros [= <-]. f_equal. destruct (n_ext n), (n_ext n'); cbn in H4; congruence.
Qed.
Lemma shown_type h h' i n n' d : h_nodes h !! i = Some n -> h_nodes h' !! i = Some n' -> shown (n_ext n') = shown (n_ext n) ->
  doc_type h i = Ok d -> doc_type h' i = Ok d.
Proof.
  intros H1 H2 H4. unfold doc_type. rewrite (get_node_some _ _ _ H1), (get_node_some _ _ _ H2). cbn.
  intros [= <-]. f_equal. destruct (n_ext n), (n_ext n'); cbn in H4; congruence.
Qed.

(** One node, given what is below it. *)
Lemma stands_node E h h' i n n' x ks : (forall a q, attr_stands_for E h a q -> attr_stands_for E h' a q) -> stands_for E h i x ->
  h_nodes h !! i = Some n -> h_nodes h' !! i = Some n' -> n_type n' = n_type n -> n_name n' = n_name n ->
  n_value n' = n_value n -> shown (n_ext n') = shown (n_ext n) ->
  (Forall2 (stands_for E h) (n_children n) (kids_of x) -> Forall2 (stands_for E h') (n_children n') ks) ->
  (forall d t y l, x = XmlDocument d (Some y) l -> doc_type h i = Ok (Some t) -> stands_for E h t y -> stands_for E h' t y) ->
  stands_for E h' i (over_kids (fun _ => ks) x).
Proof.
  intros C Hx Hn Hn' E1 E2 E3 E5 Hk Ht.
  inversion Hx; subst; cbn [over_kids]; [..|by apply sf_attribute, C| |].
  all: match goal with H : h_nodes _ !! ?j = Some ?m, H' : h_nodes _ !! ?j = Some ?m' |- stands_for _ _ ?j _ => assert (m = m') by congruence; subst m end.
  all: rewrite <- ?E2, <- ?E3.
  - eapply sf_element; [exact Hn'|congruence| | |].
    + eapply (shown_attributes h h'); eassumption.
    + match goal with H : Forall2 (attr_stands_for _ _) _ _ |- _ => eapply Forall2_impl; [exact H|intros; by apply C] end.
    + by apply Hk.
  - eapply sf_text; [exact Hn'|congruence].
  - eapply sf_cdata; [exact Hn'|congruence].
  - eapply sf_comment; [exact Hn'|congruence].
  - eapply sf_pi; [exact Hn'|congruence].
  - eapply sf_reference; [exact Hn'|congruence].
  - eapply sf_document; [exact Hn'|congruence|eapply (shown_decl h h'); eassumption|eapply (shown_type h h'); eassumption|by apply Hk].
  - eapply sf_document_typed; [exact Hn'|congruence|eapply (shown_decl h h'); eassumption|eapply (shown_type h h'); eassumption|eapply Ht; [reflexivity|eassumption..]|by apply Hk].
  - eapply sf_doctype; [exact Hn'|congruence|]. match goal with H : n_ext _ = XDocumentType _ _ _ _ _ |- _ => rewrite H in E5 end. by destruct (n_ext n'); cbn in E5; try discriminate.
  - eapply sf_fragment; [exact Hn'|congruence|by apply Hk].
  - eapply sf_entity; [exact Hn'|congruence|]. match goal with H : n_ext _ = XEntity _ _ _ |- _ => rewrite H in E5 end. by destruct (n_ext n'); cbn in E5; try discriminate.
  - eapply sf_notation; [exact Hn'|congruence|]. match goal with H : n_ext _ = XNotation _ _ |- _ => rewrite H in E5 end. by destruct (n_ext n'); cbn in E5; try discriminate.
Qed.

Lemma stands_same E p h h' i x ks : changed_at E p h h' -> i <> p -> stands_for E h i x ->
  (forall n, h_nodes h !! i = Some n -> Forall2 (stands_for E h) (n_children n) (kids_of x) -> Forall2 (stands_for E h') (n_children n) ks) ->
  (forall d t y l, x = XmlDocument d (Some y) l -> doc_type h i = Ok (Some t) -> stands_for E h t y -> stands_for E h' t y) ->
  stands_for E h' i (over_kids (fun _ => ks) x).
Proof.
  intros C Hp Hx Hk Ht.
  assert (G : exists n, h_nodes h !! i = Some n) by (inversion Hx as [| | | | | | | | | |? ? (? & ? & ? & _)| |]; subst; eauto).
  destruct G as (n & Hn). destruct (ca_old _ _ _ _ C i n Hp Hn) as (n' & Hn' & E1 & E2 & E3 & E4 & E5).
  eapply (stands_node E h h' i n n'); [apply (ca_attr _ _ _ _ C)|done..| |done]. rewrite E4. by apply Hk.
Qed.

Lemma kids_same E h h' l ks : Forall (fun x => forall i, stands_for E h i x -> In i l -> stands_for E h' i x) ks ->
  forall cs, (forall c, In c cs -> In c l) -> Forall2 (stands_for E h) cs ks -> Forall2 (stands_for E h') cs ks.
Proof.
  induction 1 as [|k ks Hk _ IH]; intros cs Hl H; inversion H; subst; constructor.
  - apply Hk; [done|]. apply Hl. by left.
  - apply IH; [|done]. intros c Hc. apply Hl. by right.
Qed.
Lemma over_kids_same x : over_kids (fun _ => kids_of x) x = x.
Proof. by destruct x. Qed.
Lemma below_child h i n c p : h_nodes h !! i = Some n -> In c (n_children n) -> at_or_below h c p -> at_or_below h i p.
Proof. intros Hn Hc H. eapply rtc_l; [|exact H]. exists (n_children n). split; [by apply child_nodes_some|done]. Qed.

(** Nodes that do not have [p] below them. *)
Lemma stands_outside E p h h' : changed_at E p h h' -> forall x i, stands_for E h i x -> ~ at_or_below h i p -> stands_for E h' i x.
Proof.
  intros C.
  assert (Q : forall i, ~ at_or_below h i p -> i <> p) by (intros i Hb ->; apply Hb; apply rtc_refl).
  assert (L : forall i n, h_nodes h !! i = Some n -> ~ at_or_below h i p -> forall ks,
      Forall (fun x => forall i, stands_for E h i x -> ~ at_or_below h i p -> stands_for E h' i x) ks ->
      Forall2 (stands_for E h) (n_children n) ks -> Forall2 (stands_for E h') (n_children n) ks).
  { intros i n Hn Hb ks F. apply kids_same with (l := n_children n); [|done].
    eapply Forall_impl; [exact F|]. intros y Hy j Hj Hin. apply Hy; [done|]. intros G. apply Hb. by eapply below_child. }
  assert (T : forall i t, doc_type h i = Ok (Some t) -> ~ at_or_below h t p) by apply (ca_type _ _ _ _ C).
  apply (xml_ind' (fun x => forall i, stands_for E h i x -> ~ at_or_below h i p -> stands_for E h' i x)).
  - intros nm a ks IH i Hx Hb. rewrite <- (over_kids_same (XmlElement nm a ks)). eapply stands_same; [done|by apply Q|done| |done].
    intros n Hn. by apply (L i).
  - intros d dt ks Hdt IH i Hx Hb. rewrite <- (over_kids_same (XmlDocument d dt ks)). eapply stands_same; [done|by apply Q|done| |].
    + intros n Hn. by apply (L i).
    + intros d' t y l [= -> -> ->] Ht Hy. apply Hdt; [done|]. by eapply T.
  - intros ks IH i Hx Hb. rewrite <- (over_kids_same (XmlFragment ks)). eapply stands_same; [done|by apply Q|done| |done].
    intros n Hn. by apply (L i).
  - intros x. assert (G : kids_of x = [] -> (forall d y l, x <> XmlDocument d (Some y) l) -> over_kids (fun _ => []) x = x ->
      forall i, stands_for E h i x -> ~ at_or_below h i p -> stands_for E h' i x).
    { intros Hk Hd Ho i Hx Hb. rewrite <- Ho. eapply stands_same; [done|by apply Q|done| |].
      - intros n Hn. rewrite Hk. intros F. inversion F. constructor.
      - intros d t y l ->. by destruct (Hd d y l). }
    destruct x; try exact Logic.I; by apply G.
Qed.

(** Nodes that have [p] below them in one place. *)
Lemma below_path h i p : at_or_below h i p -> exists w, path h i w p.
Proof.
  induction 1 as [i|i c p (l & Hl & Hc) _ (w & IH)]; [exists []; constructor|].
  apply elem_of_list_In, elem_of_list_lookup in Hc as (k & Hk). exists (k :: w). by econstructor.
Qed.
Lemma path_app h i w c w' p : path h i w c -> path h c w' p -> path h i (w ++ w') p.
Proof. induction 1; intros H'; [done|]. cbn. econstructor; [eassumption..|auto]. Qed.
Lemma path_below h i w p : path h i w p -> at_or_below h i p.
Proof. induction 1 as [|i l k c w p H1 H2 _ IH]; [apply rtc_refl|]. eapply rtc_l; [|exact IH]. exists l. split; [done|]. by eapply elem_of_list_In, elem_of_list_lookup_2. Qed.

Lemma at_nth_kids E h h' f cs : forall ks k, Forall2 (stands_for E h) cs ks ->
  (forall j c x, j <> k -> cs !! j = Some c -> stands_for E h c x -> stands_for E h' c x) ->
  (forall c x, cs !! k = Some c -> stands_for E h c x -> stands_for E h' c (f x)) ->
  Forall2 (stands_for E h') cs (at_nth k f ks).
Proof.
  induction cs as [|c cs IH]; intros ks k F Ho Hk; inversion F as [|? y ? l Hy Hl]; subst; [by destruct k; constructor|]. destruct k as [|k]; cbn [at_nth].
  - constructor; [by apply Hk|].
    assert (G : forall j c0 x, cs !! j = Some c0 -> stands_for E h c0 x -> stands_for E h' c0 x) by (intros j c0 x Hj; by apply (Ho (S j))).
    clear - G Hl. induction Hl as [|c0 x cs l Hx _ IH]; constructor; [by apply (G 0)|]. apply IH. intros j. apply (G (S j)).
  - constructor; [by apply (Ho 0)|]. apply IH; [done| |].
    + intros j c0 x Hj. apply (Ho (S j)). lia.
    + apply Hk.
Qed.
Lemma over_kids_const f x : over_kids f x = over_kids (fun _ => f (kids_of x)) x.
Proof. by destruct x. Qed.

Lemma stands_edit E p h h' f : changed_at E p h h' -> (forall P, stands_for E h p P -> stands_for E h' p (f P)) ->
  forall w r X, sole_path h r w p -> stands_for E h r X -> stands_for E h' r (edit w f X).
Proof.
  intros C Hf. induction w as [|k w IH]; intros r X [Hp Hu] HX.
  - inversion Hp; subst. by apply Hf.
  - assert (Hr : r <> p) by (intros ->; by specialize (Hu [] (path_here h p))).
    inversion Hp as [|? l ? c ? ? Hl Hk Hw]; subst. cbn [edit]. rewrite over_kids_const.
    eapply stands_same; [done|done|done| |].
    + intros n Hn F. pose proof (child_nodes_some h r n Hn) as Hl'. rewrite Hl in Hl'. injection Hl' as ->.
      eapply at_nth_kids; [exact F| |].
      * intros j d x Hj Hd Hx. eapply stands_outside; [done..|]. intros Hb. apply below_path in Hb as (w' & Hw').
        specialize (Hu (j :: w') (path_down _ _ _ _ _ _ _ Hl Hd Hw')). congruence.
      * intros d x Hd Hx. assert (d = c) by congruence. subst d. apply IH; [|done]. split; [done|]. intros w' Hw'.
        specialize (Hu (k :: w') (path_down _ _ _ _ _ _ _ Hl Hk Hw')). congruence.
    + intros d t y l0 -> Ht Hy. eapply stands_outside; [done..|]. by eapply (ca_type _ _ _ _ C).
Qed.
(** Nor is [p] below its own children. *)
Lemma sole_children h r w p n c : sole_path h r w p -> h_nodes h !! p = Some n -> In c (n_children n) -> ~ at_or_below h c p.
Proof.
  intros [Hp Hu] Hn Hc Hb. apply below_path in Hb as (w' & Hw'). apply elem_of_list_In, elem_of_list_lookup in Hc as (k & Hk).
  specialize (Hu (w ++ k :: w')). assert (G : path h r (w ++ k :: w') p).
  { eapply path_app; [exact Hp|]. econstructor; [by apply child_nodes_some|exact Hk|done]. }
  specialize (Hu G). apply (f_equal length) in Hu. rewrite app_length in Hu. cbn in Hu. lia.
Qed.

(** ** When a call changes only [p] *)
Lemma changed_by E h o h' x p np : wf_env E -> reachable h -> exec E o h = (h', x) -> (forall j, ~ drops o j) ->
  h_nodes h !! p = Some np -> n_type np <> NAttribute -> n_type np <> NDocumentType ->
  (forall j f n, h_nodes h !! j = Some n -> writes h o j f -> f = PParent \/ j = p /\ f <> PMaps) ->
  (node_value h' p = node_value h p \/ outside_attributes h p) -> changed_at E p h h'.
Proof.
  intros HE Hr H Hd Hnp Hna Hnt Hw Hv. pose proof (reachable_inv h Hr) as HI.
  pose proof (C63_locality E h o h' x HE Hr H) as L.
  assert (K : kept h h').
  { split.
    - intros j n Hn. destruct (L j n Hn (Hd j)) as (n' & Hn' & H1 & H2 & H3 & Hf). exists n'. split_and!; [done..| |].
      + intros Ht. destruct (Hf PChildren) as [W|S]; [|exact S]. exfalso. destruct (Hw j _ n Hn W) as [|[-> _]]; [done|congruence].
      + unfold typed. destruct (Hf PMaps) as [W|S]; [exfalso; by destruct (Hw j _ n Hn W) as [|[_ ?]]|]. cbn in S. by rewrite S.
    - apply (C63_no_resurrection E h o h' x HE Hr H).
    - intros a n c m m' Ha Ht Hc Hm Hm'. destruct (L c m Hm (Hd c)) as (m'' & Hm'' & _ & _ & _ & Hf). assert (m'' = m') by congruence. subst m''.
      destruct (Hf PValue) as [W|S]; [|exact S]. destruct (Hw c _ m Hm W) as [|[-> _]]; [done|]. destruct Hv as [Hv|Hv].
      + unfold node_value in Hv. rewrite (get_node_some _ _ _ Hm), (get_node_some _ _ _ Hm') in Hv. cbn in Hv. congruence.
      + exfalso. eapply (Hv a (n_children n)); [|by apply child_nodes_some|done]. unfold node_type_of. rewrite (get_node_some _ _ _ Ha). cbn. by rewrite Ht. }
  split.
  - intros i n Hi Hn. destruct (L i n Hn (Hd i)) as (n' & Hn' & H1 & H2 & H3 & Hf). exists n'. split_and!; [done..| | |].
    + destruct (Hf PValue) as [W|S]; [|exact S]. exfalso. by destruct (Hw i _ n Hn W) as [|[? _]].
    + destruct (Hf PChildren) as [W|S]; [|exact S]. exfalso. by destruct (Hw i _ n Hn W) as [|[? _]].
    + destruct (Hf PMaps) as [W|S]; [exfalso; by destruct (Hw i _ n Hn W) as [|[? _]]|]. cbn in S. by rewrite S.
  - intros a q (n & v & Hn & Ht & Hq & Hval & He). destruct (L a n Hn (Hd a)) as (n' & Hn' & H1 & H2 & _). exists n', v.
    split_and!; [done|congruence|congruence| |done]. by rewrite (kept_value E h h' a n K HI Hn Ht).
  - intros i t Ht Hb. unfold doc_type in Ht. destruct (h_nodes h !! i) as [n|] eqn:Hn; [|unfold get_node in Ht; by rewrite Hn in Ht].
    rewrite (get_node_some _ _ _ Hn) in Ht. cbn in Ht. destruct (inv_node h HI i n Hn) as (Hex & _). unfold ext_ok in Hex.
    destruct (n_ext n) as [| |? dt ? ?| | | |]; try discriminate. injection Ht as ->. destruct Hex as (_ & Hex & _).
    destruct (Hex t eq_refl) as (st & Hst & Htt). apply info_inv in Hst as (nt & Hty & <-). cbn in Htt.
    inversion Hb as [|? c ? (l & Hl & Hc) _]; subst; [congruence|]. rewrite (child_nodes_some h t nt Hty) in Hl. injection Hl as <-.
    destruct (inv_node h HI t nt Hty) as (_ & _ & _ & [Hch _] & _). destruct (Hch c Hc) as (_ & s & _ & [Hal _]). cbn in Hal. by rewrite Htt in Hal.
Qed.

(** ** The node itself *)
Lemma stands_kids E h h' p n n' P (f : list xml -> list xml) : changed_at E p h h' -> stands_for E h p P ->
  h_nodes h !! p = Some n -> h_nodes h' !! p = Some n' -> n_type n' = n_type n -> n_name n' = n_name n ->
  n_value n' = n_value n -> n_ext n' = n_ext n ->
  (forall ks, Forall2 (stands_for E h) (n_children n) ks -> Forall2 (stands_for E h') (n_children n') (f ks)) ->
  stands_for E h' p (over_kids f P).
Proof.
  intros C HP Hn Hn' E1 E2 E3 E4 Hk. rewrite over_kids_const.
  eapply (stands_node E h h' p n n'); [apply (ca_attr _ _ _ _ C)|done..|by rewrite E4|apply Hk|].
  intros d t y l _ Ht Hy. eapply stands_outside; [done..|]. by eapply (ca_type _ _ _ _ C).
Qed.
Lemma stands_value E h h' p n n' P : changed_at E p h h' -> stands_for E h p P ->
  h_nodes h !! p = Some n -> h_nodes h' !! p = Some n' -> n_type n' = n_type n -> n_name n' = n_name n ->
  n_children n' = n_children n -> n_ext n' = n_ext n -> (forall c, In c (n_children n) -> ~ at_or_below h c p) ->
  stands_for E h' p (with_value (n_value n') P).
Proof.
  intros C HP Hn Hn' E1 E2 E3 E4 Hc.
  assert (G : forall ks, Forall2 (stands_for E h) (n_children n) ks -> Forall2 (stands_for E h') (n_children n) ks).
  { intros ks. apply kids_same with (l := n_children n); [|done]. apply Forall_forall. intros x _ i Hx Hi. eapply stands_outside; [done..|by apply Hc]. }
  assert (T : forall t y, doc_type h p = Ok (Some t) -> stands_for E h t y -> stands_for E h' t y)
    by (intros t y Ht Hy; eapply stands_outside; [done..|]; by eapply (ca_type _ _ _ _ C)).
  assert (S4 : shown (n_ext n') = shown (n_ext n)) by (by rewrite E4).
  inversion HP; subst; cbn [with_value]; [..|by apply sf_attribute, (ca_attr _ _ _ _ C)| |].
  all: match goal with H : h_nodes _ !! ?j = Some ?m, H' : h_nodes _ !! ?j = Some ?m' |- stands_for _ _ ?j _ => assert (m = m') by congruence; subst m end.
  all: rewrite <- ?E2.
  - eapply sf_element; [exact Hn'|congruence| | |rewrite E3; by apply G].
    + eapply (shown_attributes h h'); eassumption.
    + match goal with H : Forall2 (attr_stands_for _ _) _ _ |- _ => eapply Forall2_impl; [exact H|intros; by apply (ca_attr _ _ _ _ C)] end.
  - eapply sf_text; [exact Hn'|congruence].
  - eapply sf_cdata; [exact Hn'|congruence].
  - eapply sf_comment; [exact Hn'|congruence].
  - eapply sf_pi; [exact Hn'|congruence].
  - eapply sf_reference; [exact Hn'|congruence].
  - eapply sf_document; [exact Hn'|congruence|eapply (shown_decl h h'); eassumption|eapply (shown_type h h'); eassumption|rewrite E3; by apply G].
  - eapply sf_document_typed; [exact Hn'|congruence|eapply (shown_decl h h'); eassumption|eapply (shown_type h h'); eassumption|by apply T|rewrite E3; by apply G].
  - eapply sf_doctype; [exact Hn'|congruence..].
  - eapply sf_fragment; [exact Hn'|congruence|rewrite E3; by apply G].
  - eapply sf_entity; [exact Hn'|congruence..].
  - eapply sf_notation; [exact Hn'|congruence..].
Qed.

(** ** Lists *)
Lemma position_first c l k : position c l = Some k <-> first_at c l k.
Proof.
  split; [apply position_lookup|]. intros [H1 H2]. revert l H1 H2. induction k as [|k IH]; intros [|y l] H1 H2; try done; cbn.
  - injection H1 as ->. by rewrite bool_decide_true.
  - destruct (decide (y = c)) as [->|Hy]; [by destruct (H2 0); [lia|]|]. rewrite bool_decide_false by done. rewrite (IH l); [done|done|]. intros j Hj. apply (H2 (S j)). lia.
Qed.

(** ** Only one way down *)
Lemma path_snoc h r w p : path h r w p -> w = [] /\ r = p \/ exists w0 k q l, w = w0 ++ [k] /\ path h r w0 q /\ child_nodes h q = Ok l /\ l !! k = Some p.
Proof.
  induction 1 as [|i l k c w p Hl Hk Hw IH]; [by left|right]. destruct IH as [[-> ->]|(w0 & k' & q & l' & -> & Hq & Hl' & Hk')].
  - exists [], k, i, l. split_and!; [done|constructor|done..].
  - exists (k :: w0), k', q, l'. split_and!; [done|by econstructor|done..].
Qed.
Lemma path_not_attribute h r w p : Inv h -> path h r w p -> node_type_of h r <> Ok NAttribute -> node_type_of h p <> Ok NAttribute.
Proof.
  intros HI. induction 1 as [|i l k c w p Hl Hk Hw IH]; intros Ht; [done|]. apply IH. intros Hc. apply type_of_get in Hc as (nc & Hc & Hty).
  apply child_nodes_get in Hl as (n & Hn & <-). destruct (inv_node h HI i n Hn) as (_ & _ & _ & [Hch _] & _).
  destruct (Hch c) as (_ & s & Hs & [Hal _]); [by eapply elem_of_list_In, elem_of_list_lookup_2|]. apply info_inv in Hs as (m & Hm & <-).
  assert (m = nc) by congruence. subst m. cbn in Hal. rewrite Hty in Hal. by destruct (n_type n).
Qed.
Lemma two_way_sole h r w p : Inv h -> two_way h -> acyclic h -> node_type_of h r <> Ok NAttribute -> path h r w p -> sole_path h r w p.
Proof.
  intros HI H2 Ha Ht Hp. split; [done|]. revert p Hp.
  assert (Cy : forall i w k q l, path h i w q -> child_nodes h q = Ok l -> l !! k = Some i -> False).
  { intros i w' k q l Hw Hl Hk. apply path_below in Hw. apply (Ha i). eapply tc_rtc_l; [exact Hw|]. apply tc_once. exists l.
    split; [done|]. by eapply elem_of_list_In, elem_of_list_lookup_2. }
  induction w as [|k w IH] using rev_ind; intros p Hp w' Hp'.
  - apply path_snoc in Hp as [[_ ->]|(w0 & k & q & l & E & _)]; [|by destruct w0].
    apply path_snoc in Hp' as [[-> _]|(w0 & k & q & l & _ & Hq & Hl & Hk)]; [done|exfalso; by eapply Cy].
  - apply path_snoc in Hp as [[E _]|(w0 & k0 & q & l & E & Hq & Hl & Hk)]; [by destruct w|]. apply app_inj_tail in E as [<- <-].
    apply path_snoc in Hp' as [[-> ->]|(w1 & k1 & q1 & l1 & -> & Hq1 & Hl1 & Hk1)]; [exfalso; by eapply Cy|].
    pose proof (path_not_attribute h r _ q HI Hq Ht) as T. pose proof (path_not_attribute h r _ q1 HI Hq1 Ht) as T1.
    destruct (child_nodes_get _ _ _ Hl) as (n & Hn & <-). destruct (child_nodes_get _ _ _ Hl1) as (n1 & Hn1 & <-).
    assert (Q : forall j m, h_nodes h !! j = Some m -> node_type_of h j = Ok (n_type m)) by (intros j m Hm; unfold node_type_of; by rewrite (get_node_some _ _ _ Hm)).
    destruct (H2 q _ _ Hl (Q _ _ Hn)) as [D1 D2]; [intros X; apply T; by rewrite (Q _ _ Hn), X|].
    destruct (H2 q1 _ _ Hl1 (Q _ _ Hn1)) as [_ D3]; [intros X; apply T1; by rewrite (Q _ _ Hn1), X|].
    assert (A1 : parent_node h p = Ok (Some q)) by (apply D2; by eapply elem_of_list_In, elem_of_list_lookup_2).
    assert (A2 : parent_node h p = Ok (Some q1)) by (apply D3; by eapply elem_of_list_In, elem_of_list_lookup_2).
    assert (q1 = q) by congruence. subst q1. assert (n1 = n) by congruence. subst n1.
    rewrite (IH q Hq w1 Hq1). f_equal. f_equal. eapply NoDup_lookup; [by apply NoDup_ListNoDup|exact Hk1|exact Hk].
Qed.
