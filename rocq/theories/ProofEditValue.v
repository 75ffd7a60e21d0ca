(** * ProofEditValue: setting the value of an attribute shows at the element that has it only *)
From Verif Require Import SpecEdit ProofInv ProofSteps ProofShow ProofElem ProofFrame PropFrame ProofOps ProofEdit.

(** ** The values of the other attributes *)
(** As [kept], but for the attribute [a]. *)
Record kept_but (a : id) (h h' : heap) : Prop := {
  bk_old : forall j n, h_nodes h !! j = Some n -> exists n', h_nodes h' !! j = Some n' /\ n_type n' = n_type n /\ n_owner n' = n_owner n /\
            (n_type n = NAttribute -> j <> a -> n_children n' = n_children n) /\ typed n' = typed n;
  bk_none : forall j, (j < h_next h)%nat -> h_nodes h !! j = None -> h_nodes h' !! j = None;
  bk_text : forall b n c m m', h_nodes h !! b = Some n -> n_type n = NAttribute -> In c (n_children n) ->
            h_nodes h !! c = Some m -> h_nodes h' !! c = Some m' -> n_value m' = n_value m }.
Lemma bkept_text h h' l : (forall c, In c l -> exists m m', h_nodes h !! c = Some m /\ h_nodes h' !! c = Some m' /\ n_type m' = n_type m /\ n_value m' = n_value m) ->
  attr_text h' l = attr_text h l.
Proof.
  induction l as [|c l IH]; intros Hl; [done|]. cbn. destruct (Hl c) as (m & m' & H1 & H2 & H3 & H4); [by left|].
  unfold get_node. rewrite H1, H2. cbn. rewrite IH by (intros; apply Hl; by right). unfold is_type. by rewrite H3, H4.
Qed.
Lemma bkept_resolve a h h' i n s : kept_but a h h' -> Inv h -> h_nodes h !! i = Some n -> n_type n = NAttribute -> resolve_entity h' i s = resolve_entity h i s.
Proof.
  intros Hv HI Hn Ht. destruct (bk_old _ _ _ Hv i n Hn) as (n' & Hn' & Ht' & Ho' & _ & _).
  unfold resolve_entity. rewrite (get_node_some _ _ _ Hn), (get_node_some _ _ _ Hn'). cbn [rbind]. rewrite Ht', Ht, Ho'.
  destruct (owner_some h i n HI Hn ltac:(congruence) ltac:(congruence)) as (d & Ho & Hlt & Hdt). rewrite Ho. unfold upgrade, alive.
  destruct (h_nodes h !! d) as [nd|] eqn:Hd; [|by rewrite (bk_none _ _ _ Hv d Hlt Hd)].
  destruct (bk_old _ _ _ Hv d nd Hd) as (nd' & Hd' & Htd & _ & _ & Hvd). injection Hvd as Hdt' _. rewrite Hd'.
  unfold doc_type. rewrite (get_node_some _ _ _ Hd), (get_node_some _ _ _ Hd'). cbn [rbind]. unfold is_type at 1 3. rewrite Htd.
  destruct (type_eqb (n_type nd) NDocument); [|done]. rewrite Hdt'.
  destruct (match n_ext nd with XDocument _ x _ _ => x | _ => None end) as [t|] eqn:Hx; [|done].
  destruct (inv_node h HI d nd Hd) as (Hex & _). unfold ext_ok in Hex. destruct (n_ext nd) as [| |? dt ? ?| | | |]; try done. subst dt.
  destruct Hex as (_ & Hex & _). destruct (Hex t eq_refl) as (st & Hst & Htt). apply info_inv in Hst as (nt & Hnt & <-).
  destruct (bk_old _ _ _ Hv t nt Hnt) as (nt' & Hnt' & Ht1 & _ & _ & Hvt). injection Hvt as _ Hes.
  cbn [rbind]. rewrite (get_node_some _ _ _ Hnt), (get_node_some _ _ _ Hnt'). cbn [rbind]. unfold is_type. rewrite Ht1. cbn in Htt. rewrite Htt. cbn.
  destruct (inv_node h HI t nt Hnt) as (Hex' & _). unfold ext_ok in Hex'.
  destruct (n_ext nt) as [| | |es ns p1 p2 p3| | |] eqn:Hxt; try (destruct Hex'; congruence); try (rewrite Htt in Hex'; done).
  destruct Hex' as (_ & -> & ->).
  destruct (unwrap_res (name_from_str s)); cbn; try done. destruct (n_ext nt'); try done. by subst.
Qed.
Lemma bkept_value a E h h' i n : kept_but a h h' -> i <> a -> Inv h -> h_nodes h !! i = Some n -> n_type n = NAttribute -> attr_value E h' i = attr_value E h i.
Proof.
  intros Hv Hia HI Hn Ht. destruct (bk_old _ _ _ Hv i n Hn) as (n' & Hn' & _ & _ & Hc' & _). specialize (Hc' Ht Hia).
  unfold attr_value. rewrite (get_node_some _ _ _ Hn), (get_node_some _ _ _ Hn'). cbn [rbind]. rewrite Hc'. destruct (is_nil (n_children n)); [done|].
  rewrite (bkept_text h h').
  2:{ intros c Hc. destruct (inv_node h HI i n Hn) as (_ & _ & _ & [Hch _] & _).
      destruct (Hch c Hc) as (_ & s & Hs & _). apply info_inv in Hs as (m & Hm & _). destruct (bk_old _ _ _ Hv c m Hm) as (m' & Hm' & Htm & _).
      exists m, m'. split_and!; [done..|]. exact (bk_text _ _ _ Hv i n c m m' Hn Ht Hc Hm Hm'). }
  destruct (attr_text h (n_children n)); cbn [rbind]; [|done..].
  rewrite (normalize_ext E (resolve_entity h' i) (resolve_entity h i) false); [reflexivity|]. intros s. by eapply bkept_resolve.
Qed.
#[local] Opaque attr_value.

(** ** Only [p] and [a], an attribute of [p] only, show a change *)
Definition meets (h : heap) (i p a : id) : Prop := at_or_below h i p \/ at_or_below h i a.
Record changed_but (E : env) (p a : id) (h h' : heap) : Prop := {
  cb_old : forall i n, i <> p -> i <> a -> h_nodes h !! i = Some n -> exists n', h_nodes h' !! i = Some n' /\ n_type n' = n_type n /\ n_name n' = n_name n /\
             n_value n' = n_value n /\ n_children n' = n_children n /\ shown (n_ext n') = shown (n_ext n);
  cb_attr : forall b q, b <> a -> attr_stands_for E h b q -> attr_stands_for E h' b q;
  cb_sole : forall i l k, attributes h i = Ok l -> In (k, a) l -> i = p;
  cb_type : forall i t, doc_type h i = Ok (Some t) -> ~ meets h t p a }.
(** Attributes are below no other node. *)
Lemma attr_top h a na i : Inv h -> h_nodes h !! a = Some na -> n_type na = NAttribute -> at_or_below h i a -> i = a.
Proof.
  intros HI Ha Ht H. apply rtc_inv_r in H as [->|(q & _ & l & Hl & Hin)]; [done|]. exfalso.
  apply child_nodes_get in Hl as (nq & Hq & <-). destruct (inv_node h HI q nq Hq) as (_ & _ & _ & [Hch _] & _).
  destruct (Hch a Hin) as (_ & s & Hs & [Hal _]). apply info_inv in Hs as (na' & Ha' & <-). assert (na' = na) by congruence. subst na'. cbn in Hal. rewrite Ht in Hal. by destruct (n_type nq).
Qed.
Lemma attrs_impl E h h' (l : list (Name * id)) avs : (forall k b q, In (k, b) l -> attr_stands_for E h b q -> attr_stands_for E h' b q) ->
  Forall2 (attr_stands_for E h) (map snd l) avs -> Forall2 (attr_stands_for E h') (map snd l) avs.
Proof.
  revert avs. induction l as [|[k b] l IH]; intros avs H HF; cbn in HF; inversion HF; subst; constructor; [eapply H; [by left|done]|].
  apply IH; [|done]. intros k' b' q ?. eapply H. by right.
Qed.
Lemma bstands_node E h h' i n n' x ks : (forall b q, b = i \/ (exists l k, attributes h i = Ok l /\ In (k, b) l) -> attr_stands_for E h b q -> attr_stands_for E h' b q) -> stands_for E h i x ->
  h_nodes h !! i = Some n -> h_nodes h' !! i = Some n' -> n_type n' = n_type n -> n_name n' = n_name n ->
  n_value n' = n_value n -> shown (n_ext n') = shown (n_ext n) ->
  (Forall2 (stands_for E h) (n_children n) (kids_of x) -> Forall2 (stands_for E h') (n_children n') ks) ->
  (forall d t y l, x = XmlDocument d (Some y) l -> doc_type h i = Ok (Some t) -> stands_for E h t y -> stands_for E h' t y) ->
  stands_for E h' i (over_kids (fun _ => ks) x).
Proof.
  intros C Hx Hn Hn' E1 E2 E3 E5 Hk Ht.
  inversion Hx; subst; cbn [over_kids]; [..|apply sf_attribute, C; [by left|done]| |].
  all: match goal with H : h_nodes _ !! ?j = Some ?m, H' : h_nodes _ !! ?j = Some ?m' |- stands_for _ _ ?j _ => assert (m = m') by congruence; subst m end.
  all: rewrite <- ?E2, <- ?E3.
  - eapply sf_element; [exact Hn'|congruence| | |].
    + eapply (shown_attributes h h'); eassumption.
    + match goal with Ha : attributes _ _ = Ok ?l, H : Forall2 (attr_stands_for _ _) _ _ |- _ => eapply (attrs_impl E h h' l); [|exact H]; intros k b q Hin; apply C; right; by exists l, k end.
    + by apply Hk.
  - eapply sf_text; [exact Hn'|congruence].
  - eapply sf_cdata; [exact Hn'|congruence].
  - eapply sf_comment; [exact Hn'|congruence].
  - eapply sf_pi; [exact Hn'|congruence].
  - eapply sf_reference; [exact Hn'|congruence].
  - eapply sf_document; [exact Hn'|congruence|eapply (shown_decl h h'); eassumption|eapply (shown_type h h'); eassumption|by apply Hk].
  - eapply sf_document_typed; [exact Hn'|congruence|eapply (shown_decl h h'); eassumption|eapply (shown_type h h'); eassumption|eapply Ht; [reflexivity|eassumption..]|by apply Hk].
  - eapply sf_doctype; [exact Hn'|congruence|]. match goal with H : n_ext _ = XDocumentType _ _ _ _ _ |- _ => rewrite H in E5 end. by destruct (n_ext n'); cbn in E5; try discriminate.
  - eapply sf_fragment; [exact Hn'|congruence|by apply Hk].
  - eapply sf_entity; [exact Hn'|congruence|]. match goal with H : n_ext _ = XEntity _ _ _ |- _ => rewrite H in E5 end. by destruct (n_ext n'); cbn in E5; try discriminate.
  - eapply sf_notation; [exact Hn'|congruence|]. match goal with H : n_ext _ = XNotation _ _ |- _ => rewrite H in E5 end. by destruct (n_ext n'); cbn in E5; try discriminate.
Qed.

Lemma bstands_same E p a h h' i x ks : changed_but E p a h h' -> i <> p -> i <> a -> stands_for E h i x ->
  (forall n, h_nodes h !! i = Some n -> Forall2 (stands_for E h) (n_children n) (kids_of x) -> Forall2 (stands_for E h') (n_children n) ks) ->
  (forall d t y l, x = XmlDocument d (Some y) l -> doc_type h i = Ok (Some t) -> stands_for E h t y -> stands_for E h' t y) ->
  stands_for E h' i (over_kids (fun _ => ks) x).
Proof.
  intros C Hp Hia Hx Hk Ht.
  assert (G : exists n, h_nodes h !! i = Some n) by (inversion Hx as [| | | | | | | | | |? ? (? & ? & ? & _)| |]; subst; eauto).
  destruct G as (n & Hn). destruct (cb_old _ _ _ _ _ C i n Hp Hia Hn) as (n' & Hn' & E1 & E2 & E3 & E4 & E5).
  eapply (bstands_node E h h' i n n'); [|done..| |done]; [|rewrite E4; by apply Hk].
  intros b q [->|(l & k & Hl & Hin)] Hq; apply (cb_attr _ _ _ _ _ C); [done|done| |done]. intros ->. apply Hp. by eapply (cb_sole _ _ _ _ _ C).
Qed.
(** Nodes that do not have [p] below them. *)
Lemma bstands_outside E p a h h' : changed_but E p a h h' -> forall x i, stands_for E h i x -> ~ meets h i p a -> stands_for E h' i x.
Proof.
  intros C.
  assert (Q : forall i, ~ meets h i p a -> i <> p) by (intros i Hb ->; apply Hb; left; apply rtc_refl).
  assert (Q' : forall i, ~ meets h i p a -> i <> a) by (intros i Hb ->; apply Hb; right; apply rtc_refl).
  assert (L : forall i n, h_nodes h !! i = Some n -> ~ meets h i p a -> forall ks,
      Forall (fun x => forall i, stands_for E h i x -> ~ meets h i p a -> stands_for E h' i x) ks ->
      Forall2 (stands_for E h) (n_children n) ks -> Forall2 (stands_for E h') (n_children n) ks).
  { intros i n Hn Hb ks F. apply kids_same with (l := n_children n); [|done].
    eapply Forall_impl; [exact F|]. intros y Hy j Hj Hin. apply Hy; [done|]. intros G. apply Hb. destruct G as [G|G]; [left|right]; by eapply below_child. }
  assert (T : forall i t, doc_type h i = Ok (Some t) -> ~ meets h t p a) by apply (cb_type _ _ _ _ _ C).
  apply (xml_ind' (fun x => forall i, stands_for E h i x -> ~ meets h i p a -> stands_for E h' i x)).
  - intros nm avs ks IH i Hx Hb. rewrite <- (over_kids_same (XmlElement nm avs ks)). eapply bstands_same; [done|by apply Q|by apply Q'|done| |done].
    intros n Hn. by apply (L i).
  - intros d dt ks Hdt IH i Hx Hb. rewrite <- (over_kids_same (XmlDocument d dt ks)). eapply bstands_same; [done|by apply Q|by apply Q'|done| |].
    + intros n Hn. by apply (L i).
    + intros d' t y l [= -> -> ->] Ht Hy. apply Hdt; [done|]. by eapply T.
  - intros ks IH i Hx Hb. rewrite <- (over_kids_same (XmlFragment ks)). eapply bstands_same; [done|by apply Q|by apply Q'|done| |done].
    intros n Hn. by apply (L i).
  - intros x. assert (G : kids_of x = [] -> (forall d y l, x <> XmlDocument d (Some y) l) -> over_kids (fun _ => []) x = x ->
      forall i, stands_for E h i x -> ~ meets h i p a -> stands_for E h' i x).
    { intros Hk Hd Ho i Hx Hb. rewrite <- Ho. eapply bstands_same; [done|by apply Q|by apply Q'|done| |].
      - intros n Hn. rewrite Hk. intros F. inversion F. constructor.
      - intros d t y l ->. by destruct (Hd d y l). }
    destruct x; try exact Logic.I; by apply G.
Qed.

Lemma bstands_edit E p a h h' f : Inv h -> (exists na, h_nodes h !! a = Some na /\ n_type na = NAttribute) -> a <> p ->
  changed_but E p a h h' -> (forall P, stands_for E h p P -> stands_for E h' p (f P)) ->
  forall w r X, r <> a -> sole_path h r w p -> stands_for E h r X -> stands_for E h' r (edit w f X).
Proof.
  intros HI (na & Ha & Hta) Hap C Hf. induction w as [|k w IH]; intros r X Hra [Hp Hu] HX.
  - inversion Hp; subst. by apply Hf.
  - assert (Hr : r <> p) by (intros ->; by specialize (Hu [] (path_here h p))).
    inversion Hp as [|? l ? c ? ? Hl Hk Hw]; subst. cbn [edit]. rewrite over_kids_const.
    assert (Hca : forall j d, l !! j = Some d -> d <> a).
    { intros j d Hd ->. apply Hra. eapply attr_top; [done|exact Ha|done|]. eapply rtc_l; [|apply rtc_refl]. exists l. split; [done|]. by eapply elem_of_list_In, elem_of_list_lookup_2. }
    eapply bstands_same; [done|done|done|done| |].
    + intros n Hn F. pose proof (child_nodes_some h r n Hn) as Hl'. rewrite Hl in Hl'. injection Hl' as ->.
      eapply at_nth_kids; [exact F| |].
      * intros j d x Hj Hd Hx. eapply bstands_outside; [done..|]. intros [Hb|Hb]; [|apply (Hca j d Hd); by eapply attr_top].
        apply below_path in Hb as (w' & Hw').
        specialize (Hu (j :: w') (path_down _ _ _ _ _ _ _ Hl Hd Hw')). congruence.
      * intros d x Hd Hx. assert (d = c) by congruence. subst d. apply IH; [by eapply Hca| |done]. split; [done|]. intros w' Hw'.
        specialize (Hu (k :: w') (path_down _ _ _ _ _ _ _ Hl Hk Hw')). congruence.
    + intros d t y l0 -> Ht Hy. eapply bstands_outside; [done..|]. by eapply (cb_type _ _ _ _ _ C).
Qed.
