(** * Properties C53-C55: the parser, given the events of the reader *)
From Coq Require Import Lia.
From Verif Require Import SpecParse SpecTree ProofText ProofAttr ProofName ProofSteps PropName PropText ProofShow ProofInv ProofElem ProofInsert PropFactory ProofOps ProofTree ProofParse ProofReader SpecNs PropTree PropShow.

#[local] Opaque attr_value.

(** ** The start of every reading *)
Definition start_doc (h : heap) : heap := allocd (new_document None (set_add_namespaces options_new)) h.
Lemma read_events_eq E evs h : read_events E evs h = document_loop (S (length evs)) E (h_next h) evs (start_doc h).
Proof. done. Qed.
Lemma start_filling h : filling (start_doc h) (h_next h) [].
Proof. split; [cbn; lia|]. do 3 eexists. split; [cbn; rewrite lookup_insert; reflexivity|done]. Qed.
Lemma start_ready h b : ready (start_doc h) (h_next h) b.
Proof. eexists. split; [cbn; by rewrite lookup_insert|]. split; [cbn; lia|]. split; [done|]. intros _. constructor. Qed.
(** The document node with its declaration. *)
Definition doc_node (D : option xml_decl) : node :=
  mkNode NDocument name_for_document None None None [] (XDocument D None [] (set_add_namespaces options_new)).
Definition begun (h h1 : heap) (D : option xml_decl) : Prop :=
  h_next h1 = S (h_next h) /\ h_nodes h1 !! h_next h = Some (doc_node D) /\ (forall i, i <> h_next h -> h_nodes h1 !! i = h_nodes h !! i).
Lemma unquote_version s v : quoted_or_not s v -> v = lit "1.0" \/ v = lit "1.1" -> unquote s = Ok v.
Proof. intros Hq Hv. destruct Hq as [ -> | [ -> | -> ] ]; destruct Hv as [ -> | -> ]; by vm_compute. Qed.
Lemma decl_ok E h d l m o ev x k rest : h_nodes h !! d = Some (mkNode NDocument name_for_document None None None l (XDocument None None m o)) -> declares ev x ->
  document_loop (S k) E d (ev :: rest) h = document_loop k E d rest (upd d (mkNode NDocument name_for_document None None None l (XDocument (Some x) None m o)) h).
Proof.
  intros Hd0 [s v V enc e sta b Hq Hv He Hs].
  set (dn D := mkNode NDocument name_for_document None None None l (XDocument D None m o)).
  assert (Hh : handle_decl d (Some s) enc sta h = (upd d (dn (Some (mkDecl V e b))) h, POk tt)).
  { unfold handle_decl, pbind at 1, pdom at 1, lift, xml_declaration. rewrite (get_node_some _ _ _ Hd0). cbn [rbind n_ext].
    assert (Hver : version_from_str v = Some V) by (destruct Hv as [[-> ->]|[-> ->]]; by vm_compute).
    assert (Hset : forall V', set_xml_declaration d V' h = (upd d (dn (Some V')) h, Ok tt)).
    { intros V'. unfold set_xml_declaration. rewrite (bind_node _ _ _ _ Hd0). cbn [n_ext]. by rewrite (modifyM_eq _ _ _ _ Hd0). }
    assert (Hnew : xml_decl_new V e b = Ok (mkDecl V e b)).
    { unfold xml_decl_new. destruct He as [[_ ->]|(en & _ & Hx & ->)]; [done|]. by rewrite (proj1 (is_encoding_spec en) Hx). }
    assert (Hmk : make_decl (Some s) enc sta h = (h, POk (v, e, b))).
    { unfold make_decl, pbind, punwrap. rewrite (unquote_version s v Hq) by tauto.
      destruct He as [[-> ->]|(en & -> & Hx & ->)]; (destruct Hs as [[-> ->]|(y & z & -> & -> & Hyz)]; [done|]);
      (assert (str_eqb y (lit "yes") = z) as <-; [|done]);
      (destruct (str_eqb y (lit "yes")) eqn:Hy, z; try done; [apply bool_decide_eq_true in Hy; by apply Hyz in Hy|]);
      rewrite (proj1 Hyz eq_refl) in Hy; by vm_compute in Hy. }
    unfold pbind. rewrite Hmk. cbn [fst snd]. unfold punwrap. rewrite Hver. unfold pdom, lift. rewrite Hnew. by rewrite Hset. }
  cbn [document_loop]. by rewrite Hh.
Qed.
Lemma declared_ok E h evd D rest : declared evd D -> exists h1 k, begun h h1 D /\
  document_loop (S (length (evd ++ rest))) E (h_next h) (evd ++ rest) (start_doc h) = document_loop k E (h_next h) rest h1 /\ (length rest < k)%nat.
Proof.
  intros [|ev x Hd].
  - exists (start_doc h), (S (length rest)). split; [|by split; [|lia]]. split; [done|]. split; [cbn; by rewrite lookup_insert|]. intros i Hi. cbn. by rewrite lookup_insert_ne.
  - exists (upd (h_next h) (doc_node (Some x)) (start_doc h)), (S (length rest)).
    split; [|split; [|lia]].
    + split; [done|]. split; [apply lookup_upd|]. intros i Hi. rewrite lookup_upd_ne by done. cbn. by rewrite lookup_insert_ne.
    + assert (Hd0 : h_nodes (start_doc h) !! h_next h = Some (doc_node None)) by (cbn; by rewrite lookup_insert).
      cbn [app length]. by rewrite (decl_ok E _ _ _ _ _ ev x _ _ Hd0 Hd).
Qed.
Lemma begun_filling h h1 D : begun h h1 D -> filling h1 (h_next h) [] /\ forall b, ready h1 (h_next h) b.
Proof.
  intros (H1 & H2 & H3). split.
  - split; [lia|]. do 3 eexists. split; [exact H2|done].
  - intros b. eexists. split; [exact H2|]. split; [lia|]. split; [done|]. intros _. constructor.
Qed.
Lemma begun_into E h h1 h2 D cs more ws items : begun h h1 D -> into (h_next h) (h_next h) cs more h1 h2 -> map fst more = ws ->
  Forall2 (ok_below E (h_next h) (h_next h) h1 h2 [] more) cs items -> read_into E h h2 (h_next h) D items ws.
Proof.
  intros (H1 & H2 & H3) [Hn1 Hn2] Hm Hok. split.
  - intros i Hi. rewrite Hn2, H3 by lia. destruct (h_nodes h !! i) as [n|]; [|done]. cbn. unfold changed. by rewrite !decide_False by lia.
  - lia.
  - do 3 eexists. rewrite Hn2, H2 by lia. cbn [fmap option_fmap option_map]. unfold changed. rewrite !decide_True by done. unfold grow_ids, grow_kids, doc_node, set_ext, set_children. cbn.
    split; [reflexivity|]. split; [done|]. eapply Forall2_impl; [exact Hok|]. intros i x. apply holds_mono; [|done].
    intros j n. unfold sees. by case_decide.
Qed.

(** ** C53 *)
Theorem C53_reads : forall E h evd D items ids, wf_env E -> declared evd D ->
  Forall readable items -> Forall top_item items -> one_root items -> Forall2 (shown E) (raw_ids_all items) ids -> NoDup ids ->
  exists h' d, read_events E (evd ++ events_of_all items) h = (h', POk d) /\ read_into E h h' d D items ids.
Proof.
  intros E h evd D items ids W Hd Hr Ht Hone Hsh Hnd. rewrite read_events_eq.
  destruct (declared_ok E h evd D (events_of_all items) Hd) as (h1 & k & Hb & -> & Hk). destruct (begun_filling _ _ _ Hb) as [Hf Hrd].
  rewrite <- (app_nil_r (events_of_all items)).
  pose proof (events_length items) as Hlen.
  destruct (loop_items E W (h_next h) items h1 [] ids [] k) as (h2 & more & cs & He & Hi & Hm & Hok); try done; [intros w _ []|lia|].
  exists h2, (h_next h). split.
  - rewrite He. destruct (k - length items)%nat eqn:Hz; [lia|]. done.
  - by eapply begun_into.
Qed.
Print Assumptions C53_reads.
(** *** Ids *)
Lemma attr_ids_in v l : In v (attr_ids l) -> exists p, In p l /\ p.1 = lit "xml:id" /\ p.2 = v.
Proof.
  unfold attr_ids. intros (p & <- & Hp)%in_map_iff. apply filter_In in Hp as [Hin Hp]. apply bool_decide_eq_true in Hp. eauto.
Qed.
(** [e] is the element of the item carrying the raw id [v]. *)
Definition carrier (E : env) (h' : heap) (m : list (str * id)) (d : id) (v : str) (e : id) : Prop :=
  exists n k a, h_nodes h' !! e = Some n /\ n_type n = NElement /\ n_owner n = Some d /\
    (exists al nss, n_ext n = XElement al nss /\ In (k, a) al) /\ name_to_string k = lit "xml:id" /\
    stored_text h' a v /\ exists w, shown E v w /\ In (w, e) m.
Lemma plain_prints n k : plain_name n k -> name_to_string k = n.
Proof. intros H. by apply C09_print_parse, plain_name_ok. Qed.
Lemma holds_stored E look reg d e ka p h' : (forall i n, look i = Some n -> h_nodes h' !! i = Some n) -> holds_attr E look reg d e ka p -> stored_text h' ka.2 p.2.
Proof.
  intros Hl (_ & (t & Ha & Ht) & _). exists (mkNode NAttribute ka.1 None None (Some d) [t] (XAttribute (Some e))), [p.2].
  split; [by apply Hl|]. split; [done|]. split; [|cbn; by rewrite app_nil_r]. constructor; [|constructor]. eexists. split; [by apply Hl|]. left. split; [by left|done].
Qed.
Lemma attrs_carrier E h' m d e n al nss l v : h_nodes h' !! e = Some n -> n_type n = NElement -> n_owner n = Some d -> n_ext n = XElement al nss ->
  Forall2 (holds_attr E (fun i => h_nodes h' !! i) (fun w e => In (w, e) m) d e) al l -> In v (attr_ids l) -> carrier E h' m d v e.
Proof.
  intros Hn Ht Ho Hx Hal (p & Hin & Hp & <-)%attr_ids_in. apply elem_of_list_In in Hin. apply elem_of_list_lookup in Hin as (j & Hj).
  destruct (Forall2_lookup_r _ _ _ _ _ Hal Hj) as ([k a] & Hka & Hh). pose proof (holds_stored E _ _ d e _ _ h' (fun _ _ H => H) Hh) as Hs.
  destruct Hh as (Hpl & (t & _ & Hte) & Hid). cbn in *. exists n, k, a. split_and!; try done.
  - exists al, nss. split; [done|]. apply elem_of_list_In. by eapply elem_of_list_lookup_2.
  - rewrite (plain_prints _ _ Hpl). done.
  - by apply Hid.
Qed.
Lemma holds_carrier E h' m d v x : forall q i, holds E (fun i => h_nodes h' !! i) (fun w e => In (w, e) m) d q i x -> In v (raw_ids x) ->
  exists e, carrier E h' m d v e.
Proof.
  induction x as [name l kids IH|name l|s|s|s|s] using pnode_ind'; intros q i Hh Hin; try done; inversion Hh; subst; cbn [raw_ids] in Hin.
  - apply in_app_or in Hin as [Hin|Hin].
    + exists i. eapply attrs_carrier; [eassumption|done|done|reflexivity|eassumption|done].
    + apply in_concat in Hin as (ids & (y & <- & Hy)%in_map_iff & Hv). apply elem_of_list_In, elem_of_list_lookup in Hy as (j & Hj).
      match goal with HK : Forall2 _ _ kids |- _ => destruct (Forall2_lookup_r _ _ _ _ _ HK Hj) as (c & _ & Hc) end.
      rewrite Forall_forall in IH. eapply IH; [by eapply elem_of_list_lookup_2|exact Hc|done].
  - exists i. eapply attrs_carrier; [eassumption|done|done|reflexivity|eassumption|done].
Qed.
(** Each id finds the element whose xml:id attribute has that value, and nothing else is found. *)
Theorem C53_ids : forall E h h' d D items ids w, wf_env E -> read_into E h h' d D items ids -> Forall2 (shown E) (raw_ids_all items) ids -> NoDup ids ->
  (~ In w ids -> get_element_by_id h' d w = Ok None) /\
  (In w ids -> exists e attrs k a, get_element_by_id h' d w = Ok (Some e) /\ node_type_of h' e = Ok NElement /\
     attributes h' e = Ok attrs /\ In (k, a) attrs /\ name_to_string k = lit "xml:id" /\ attr_value E h' a = Ok (Some w)).
Proof.
  intros E h h' d D items ids w W [_ _ (l & m & o & Hd & Hm & Hk)] Hsh Hnd. unfold get_element_by_id. rewrite (get_node_some _ _ _ Hd). cbn [rbind n_ext]. split.
  - intros Hw. rewrite <- Hm in Hw. by rewrite (proj2 (hm_get_none w m) Hw).
  - intros Hw. apply elem_of_list_In, elem_of_list_lookup in Hw as (j & Hj). destruct (Forall2_lookup_r _ _ _ _ _ Hsh Hj) as (v & Hv & Hvw).
    apply elem_of_list_lookup_2, elem_of_list_In in Hv. unfold raw_ids_all in Hv. apply in_concat in Hv as (ids' & (y & <- & Hy)%in_map_iff & Hv).
    apply elem_of_list_In, elem_of_list_lookup in Hy as (j' & Hj'). destruct (Forall2_lookup_r _ _ _ _ _ Hk Hj') as (c & _ & Hc).
    destruct (holds_carrier _ _ _ _ _ _ _ _ Hc Hv) as (e & n & k & a & Hn & Ht & Ho & (al & nss & Hx & Hin) & Hnm & Hst & w' & Hw' & Hreg).
    pose proof (shown_value E h' a v w W Hst Hvw) as Hval. pose proof (shown_value E h' a v w' W Hst Hw') as Hval'. assert (w' = w) by congruence. subst w'.
    exists e, al, k, a. rewrite (proj2 (hm_get_iff w e m ltac:(apply NoDup_ListNoDup; by rewrite Hm)) Hreg). split; [f_equal; apply upgrade_some; eauto|].
    split; [apply node_type_ok; eauto|]. split; [|done]. unfold attributes. rewrite (get_node_some _ _ _ Hn). cbn [rbind]. rewrite (proj2 (is_type_true _ _) Ht), Hx. done.
Qed.
Print Assumptions C53_ids.

(** *** What was read is printed *)
Lemma holds_stands E h' reg d (W : wf_env E) x : forall q i y, holds E (fun i => h_nodes h' !! i) reg d q i x -> as_xml E x y -> stands_for E h' i y.
Proof.
  assert (HA : forall i al l avs, Forall2 (holds_attr E (fun i => h_nodes h' !! i) reg d i) al l -> Forall2 (fun p q => q.1 = p.1 /\ denotes E p.2 q.2) l avs ->
    Forall2 (attr_stands_for E h') (map snd al) avs).
  { intros i al l avs H. revert avs. induction H as [|[k a] p al l Hp _ IH]; intros avs Ha; inversion Ha as [|? q ? ? [Hq1 (l0 & t0 & H1 & H2 & H3)]]; subst; [constructor|]. constructor; [|by apply IH].
    pose proof (holds_stored E _ _ d i _ _ h' (fun _ _ H => H) Hp) as Hs. destruct Hp as (Hpl & (t & Hla & _) & _). cbn in Hla, Hs.
    exists (mkNode NAttribute k None None (Some d) [t] (XAttribute (Some i))), (Some (escape q.2)). split; [done|]. split; [done|]. split; [rewrite Hq1; by apply plain_prints|].
    split; [|apply escape_escaped]. eapply shown_value; [done|exact Hs|]. exists l0, t0, q.2. split_and!; try done. apply escape_escaped. }
  induction x as [name l kids IH|name l|s|s|s|s] using pnode_ind'; intros q i y Hh Hy; inversion Hy; subst; inversion Hh; subst;
    try (match goal with HP : pi_text s ?t ?v, HP' : pi_text s ?t' ?v' |- _ => apply pi_parts_ok in HP, HP'; rewrite HP in HP'; injection HP' as <- <- end);
    match goal with HL : h_nodes h' !! i = Some ?n |- _ => pose proof HL as Hlook; set (nd := n) in * end.
  - match goal with HP : plain_name name ?k |- _ => rewrite <- (plain_prints _ _ HP) end.
    apply (sf_element E h' i nd al avs xs); [done|done| | |].
    + unfold attributes. by rewrite (get_node_some _ _ _ Hlook).
    + eapply HA; eassumption.
    + match goal with H1 : Forall2 _ cs kids, H2 : Forall2 _ kids xs |- _ => cbn; clear -IH H1 H2; revert cs xs H1 H2 end.
      induction IH as [|y ys Hy _ IH]; intros cs xs H1 H2; inversion H1; subst; inversion H2; subst; constructor; [by eapply Hy|by apply IH].
  - match goal with HP : plain_name name ?k |- _ => rewrite <- (plain_prints _ _ HP) end.
    apply (sf_element E h' i nd al avs []); [done|done| | |constructor].
    + unfold attributes. by rewrite (get_node_some _ _ _ Hlook).
    + eapply HA; eassumption.
  - by apply (sf_text E h' i nd).
  - by apply (sf_cdata E h' i nd).
  - by apply (sf_comment E h' i nd).
  - match goal with HP : plain_name ?t ?k |- _ => rewrite <- (plain_prints _ _ HP) end. by apply (sf_pi E h' i nd).
Qed.
Lemma holds_acyclic E h' reg d x : forall q i, holds E (fun i => h_nodes h' !! i) reg d q i x -> no_cycle_below h' i.
Proof.
  induction x as [name l kids IH|name l|s|s|s|s] using pnode_ind'; intros q i Hh; inversion Hh; subst;
    match goal with HL : h_nodes h' !! i = Some ?n |- _ => pose proof HL as Hlook end.
  1: { assert (HC : forall c, child h' i c -> no_cycle_below h' c).
    { intros c (n & Hn & Hin)%child_edge. rewrite Hlook in Hn. injection Hn as <-. cbn in Hin. apply elem_of_list_In, elem_of_list_lookup in Hin as (j & Hj).
      match goal with HK : Forall2 _ cs kids |- _ => destruct (Forall2_lookup_l _ _ _ _ _ HK Hj) as (y & Hy & Hc) end.
      rewrite Forall_forall in IH. eapply IH; [by eapply elem_of_list_lookup_2|exact Hc]. }
    intros j Hj Hcy. apply rtc_inv in Hj as [<-|(c & Hc & Hj)]; [|by apply (HC c Hc j Hj)].
    assert (exists c, child h' i c /\ rtc (child h') c i) as (c & Hc & Hr) by (inversion Hcy; subst; [eauto using rtc_refl|eauto using tc_rtc]).
    apply (HC c Hc i Hr), Hcy. }
  all: intros j Hj Hcy; assert (HN : forall c, ~ child h' i c) by (intros c (n & Hn & Hin)%child_edge; rewrite Hlook in Hn; by injection Hn as <-);
    apply rtc_inv in Hj as [<-|(c & Hc & _)]; [|by apply (HN c)]; inversion Hcy; subst; by eapply HN.
Qed.
Lemma read_reachable E h evs h' d : reachable h -> wf_env E -> read_events E evs h = (h', POk d) -> reachable h'.
Proof.
  intros Hr W H. apply (reach_step h (OReadXml evs)); [done|]. split; [done|]. exists E. eexists. split; [done|]. cbn [exec]. unfold read_xml_op. rewrite H. by split.
Qed.
Lemma read_stands E h h' d D items ids xs : wf_env E -> read_into E h h' d D items ids -> Forall2 (as_xml E) items xs -> stands_for E h' d (XmlDocument D None xs).
Proof.
  intros W [_ _ (l & m & o & Hd & _ & Hk)] Hxs. eapply sf_document; [exact Hd|done| | |].
  - unfold xml_declaration. by rewrite (get_node_some _ _ _ Hd).
  - unfold doc_type. by rewrite (get_node_some _ _ _ Hd).
  - cbn. clear -W Hk Hxs. revert xs Hxs. induction Hk as [|i x l items Hi _ IH]; intros xs Hxs; inversion Hxs; subst; constructor; [|by apply IH]. by eapply holds_stands.
Qed.
Lemma read_acyclic E h h' d D items ids : read_into E h h' d D items ids -> no_cycle_below h' d.
Proof.
  intros [_ _ (l & m & o & Hd & _ & Hk)].
  assert (HC : forall c, child h' d c -> no_cycle_below h' c).
  { intros c (n & Hn & Hin)%child_edge. rewrite Hd in Hn. injection Hn as <-. cbn in Hin. apply elem_of_list_In, elem_of_list_lookup in Hin as (j & Hj).
    destruct (Forall2_lookup_l _ _ _ _ _ Hk Hj) as (y & Hy & Hc). by eapply holds_acyclic. }
  intros j Hj Hcy. apply rtc_inv in Hj as [<-|(c & Hc & Hj)]; [|by apply (HC c Hc j Hj)].
  assert (exists c, child h' d c /\ rtc (child h') c d) as (c & Hc & Hr) by (inversion Hcy; subst; [eauto using rtc_refl|eauto using tc_rtc]).
  apply (HC c Hc d Hr), Hcy.
Qed.
Theorem C53_prints : forall E h h' d D items ids xs, reachable h' -> wf_env E -> read_into E h h' d D items ids -> Forall2 (as_xml E) items xs ->
  exists s, to_string E h' d = Ok s /\ written (XmlDocument D None xs) s.
Proof.
  intros E h h' d D items ids xs Hr W Hi Hxs. apply C51_prints; [done|done|by eapply read_acyclic|by eapply read_stands].
Qed.
Print Assumptions C53_prints.
(** Reading, printing and reading back an item made of elements, text and comments. *)
Theorem C53_round_trip : forall E h h' d D items ids j x y, reachable h' -> wf_env E -> read_into E h h' d D items ids ->
  items !! j = Some x -> as_xml E x y -> plain y ->
  exists l c s its, child_nodes h' d = Ok l /\ l !! j = Some c /\ to_string E h' c = Ok s /\ read_back s = Some its /\ Forall2 same_item its (add_items y []).
Proof.
  intros E h h' d D items ids j x y Hr W [_ _ (l & m & o & Hd & _ & Hk)] Hj Hxy Hp.
  destruct (Forall2_lookup_r _ _ _ _ _ Hk Hj) as (c & Hc & Hh). pose proof (holds_stands _ _ _ _ W _ _ _ _ Hh Hxy) as Hsf.
  destruct (C51_prints E h' c y Hr W (holds_acyclic _ _ _ _ _ _ _ Hh) Hsf) as (s & Hs & _).
  destruct (C52_read_back _ _ _ _ _ Hr W Hsf Hp Hs) as (its & H1 & H2).
  exists l, c, s, its. split; [unfold child_nodes; by rewrite (get_node_some _ _ _ Hd)|]. done.
Qed.
Print Assumptions C53_round_trip.

(** *** A document read, in full *)
Ltac letters := repeat match goal with |- context [lit ?s] => let v := eval vm_compute in (lit s) in change (lit s) with v end.
Ltac each tac := repeat (apply List.Forall_cons; [tac|]); apply List.Forall_nil.
Definition ex_items : list pnode :=
  [PComment (lit "x"); PElement (lit "a") [(lit "xml:id", lit " i "); (lit "xmlns:p", lit "urn:u")]
     [PText (lit "1 < 2"); PEmptyElement (lit "p:b") [(lit "k", lit "v<w")]; PElement (lit "b") [] [PText (lit "t")]]; PPi (lit "go  1 2 ")].
Definition ex_decl : event := EDecl (Some (lit """1.0""")) (Some (Some (lit "utf-8"))) None.
Lemma NoDup_check (l : list str) : bool_decide (NoDup l) = true -> NoDup l.
Proof. apply bool_decide_eq_true. Qed.
Example C53_example : exists h' d, read_events env0 (ex_decl :: events_of_all ex_items) empty_heap = (h', POk d) /\
  declared [ex_decl] (Some (mkDecl V10 (Some (lit "utf-8")) None)) /\ Forall readable ex_items /\ Forall top_item ex_items /\ one_root ex_items /\
  Forall2 (shown env0) (raw_ids_all ex_items) [lit "i"] /\
  get_element_by_id h' d (lit "i") = Ok (Some 2) /\
  to_string env0 h' d = Ok (lit "<?xml version=""1.0"" encoding=""utf-8""?><!--x--><a xml:id=""i"" xmlns:p=""urn:u"">1 &#60; 2<p:b k=""v&#60;w""></p:b><b>t</b></a><?go 1 2?>") /\
  resolve_namespace h' 2 (Some (lit "p")) = Ok None.
Proof.
  do 2 eexists. split; [by vm_compute|]. split.
  { constructor. apply (dc _ (lit "1.0")); [right; left; done|by left| |by left]. right. exists (lit "utf-8"). split; [done|]. split; [|done].
    exists 117%N, (lit "tf-8"). split; [done|]. letters. split; [unfold ascii_letter; lia|]. each ltac:(unfold ascii_letter, ascii_digit; lia). }
  assert (P : forall n k, name_from_str n = Ok k -> plain_name n k) by (intros n k Hk; by apply plain_name_ok).
  split; [|split; [|split; [|split]]].
  - unfold ex_items. apply List.Forall_cons; [constructor|]. apply List.Forall_cons; [|apply List.Forall_cons; [|apply List.Forall_nil]].
    + eapply rd_element; [apply P; by vm_compute| |].
      * split; [by apply NoDup_check|]. each ltac:(eexists; apply P; by vm_compute).
      * apply List.Forall_cons; [constructor|]. apply List.Forall_cons; [|apply List.Forall_cons; [|apply List.Forall_nil]].
        -- eapply rd_empty; [apply P; by vm_compute|]. split; [by apply NoDup_check|]. each ltac:(eexists; apply P; by vm_compute).
        -- eapply rd_element; [apply P; by vm_compute| |repeat constructor]. split; repeat constructor.
    + eapply (rd_pi _ (lit "go")); [|apply P; by vm_compute|].
      * change (lit "go  1 2 ") with (lit "go" ++ 32%N :: lit " 1 2 "). apply (pt_data _ _ (lit "1 2")); [by vm_compute; intuition|..|done].
        exists (lit " "), (lit " "). letters. split; [done|]. split; [each ltac:(unfold unicode_white; lia)|]. split; [each ltac:(unfold unicode_white; lia)|]. split.
        -- intros c u [= <- _]. unfold unicode_white. lia.
        -- intros c u H. change ([49; 32; 50]%N) with ([49; 32]%N ++ [50%N]) in H. apply app_inj_tail in H as [_ <-]. unfold unicode_white. lia.
      * rewrite <- xml_target_iff. by vm_compute.
  - repeat constructor.
  - unfold one_root. vm_compute. lia.
  - constructor; [|constructor]. exists (lit " i "), (lit " i "), (lit "i"). split; [|split; [|split]].
    + repeat constructor; done.
    + apply (expands_plain env0 (lit " i ")). intros c [<-|[<-|[<-|[]]]]; done.
    + exists (lit " "), (lit " "). split; [done|]. split; [by repeat constructor|]. split; [by repeat constructor|]. split; intros x H; [done|].
      change (lit "i") with ([] ++ [105%N]) in H. by apply app_inj_tail in H as [_ H].
    + apply (escape_escaped (lit "i")).
  - by vm_compute.
Qed.

(** ** C54: whatever the events *)
Lemma reachable_none h i : reachable h -> (h_next h <= i)%nat -> h_nodes h !! i = None.
Proof. intros Hr Hi. apply reachable_inv in Hr. destruct (h_nodes h !! i) as [n|] eqn:Hn; [|done]. pose proof (inv_lt h Hr _ _ Hn). lia. Qed.
Lemma new_above E h evs h' r i n : reachable h -> read_events E evs h = (h', r) -> h_nodes h !! i = None -> h_nodes h' !! i = Some n -> (h_next h <= i)%nat.
Proof.
  intros Hr H Hi Hn. apply read_part in H as (HP & _); [|intros; by apply reachable_none]. destruct (decide (h_next h <= i)%nat) as [|Hlt]; [done|].
  rewrite (pa_old _ _ _ _ HP) in Hn by lia. congruence.
Qed.
(** Reading changes no node there was, be it successful, failed or stopped by a panic. *)
Theorem C54_others_unchanged : forall E h evs h' r i n, reachable h -> read_events E evs h = (h', r) -> h_nodes h !! i = Some n -> h_nodes h' !! i = Some n.
Proof.
  intros E h evs h' r i n Hr H Hn. apply read_part in H as (HP & _); [|intros; by apply reachable_none]. rewrite (pa_old _ _ _ _ HP); [done|].
  apply reachable_inv in Hr. by eapply inv_lt.
Qed.
Print Assumptions C54_others_unchanged.
(** A reading that returns leads to a reachable state: all that holds of these holds here. *)
Theorem C54_reachable : forall E h evs h' r, reachable h -> wf_env E -> read_events E evs h = (h', r) -> preturned r -> reachable h'.
Proof.
  intros E h evs h' r Hr W H Hret. destruct r as [d|e|p|]; try done; [by eapply read_reachable|].
  apply (reach_step h (OReadXml evs)); [done|]. split; [done|]. exists E, (match e with PEDom x => Err x | _ => Err Syntax end). split; [done|]. cbn [exec]. unfold read_xml_op. rewrite H. split; [destruct e; reflexivity|]. by destruct e.
Qed.
Print Assumptions C54_reachable.
(** All links of the new nodes are among new nodes, and their document is the one returned. *)
Theorem C54_closed : forall E h evs h' d, reachable h -> read_events E evs h = (h', POk d) ->
  h_nodes h !! d = None /\ node_type_of h' d = Ok NDocument /\ owner_document h' d = Ok None /\ parent_node h' d = Ok None /\ doc_type h' d = Ok None /\
  (forall w e, get_element_by_id h' d w = Ok (Some e) -> h_nodes h !! e = None) /\
  forall i n, h_nodes h !! i = None -> h_nodes h' !! i = Some n ->
    (i <> d -> owner_document h' i = Ok (Some d) /\ n_type n <> NDocument) /\
    (forall l c, child_nodes h' i = Ok l -> In c l -> h_nodes h !! c = None) /\
    (forall p, parent_node h' i = Ok (Some p) -> h_nodes h !! p = None) /\
    (forall l k a, attributes h' i = Ok l -> In (k, a) l -> h_nodes h !! a = None) /\
    (forall e, owner_element h' i = Ok (Some e) -> h_nodes h !! e = None).
Proof.
  intros E h evs h' d Hr H. pose proof (fun i => reachable_none h i Hr) as Hnone. apply read_part in H as HP; [|done]. destruct HP as (HP & (nd & Hd & Htd) & Hdd). specialize (Hdd d eq_refl). subst d.
  pose proof HP as [H1 H2 H3 H4 H5 H6].
  destruct (H5 _ _ (le_n _) (shapes_some _ _ _ Hd)) as ([(_ & _ & Hod & Hpd)|(? & _)] & Hcd & _); [|done]. cbn in Hod, Hpd, Hcd.
  destruct (H6 _ _ (le_n _) Hd) as [_ Hxd].
  split; [by apply Hnone|]. split; [apply node_type_ok; eauto|]. split; [unfold owner_document; rewrite (get_node_some _ _ _ Hd); cbn [rbind]; by rewrite Hod|].
  split; [unfold parent_node; rewrite (get_node_some _ _ _ Hd); cbn [rbind]; rewrite Hpd; by destruct (is_type _ _)|].
  split; [unfold doc_type; rewrite (get_node_some _ _ _ Hd); cbn [rbind]; destruct (n_ext nd); try done; by destruct Hxd as [-> _]|].
  split.
  { intros w e He. unfold get_element_by_id in He. rewrite (get_node_some _ _ _ Hd) in He. cbn [rbind] in He. destruct (n_ext nd) as [| |decl t m o| | | |]; try done. destruct Hxd as [_ Hm].
    injection He as He. apply upgrade_some in He as [He _]. apply hm_get_in in He. apply Hnone. by eapply Hm. }
  intros i n Hi Hn. assert (Hlo : (h_next h <= i)%nat) by (by eapply new_above).
  destruct (H5 _ _ Hlo (shapes_some _ _ _ Hn)) as (HA & HB & HC & HD). cbn in *. destruct (H6 _ _ Hlo Hn) as [_ Hx].
  split; [|split; [|split; [|split]]].
  - intros Hne. destruct HA as [(? & _)|(_ & Ht & Ho)]; [done|]. split; [|done]. unfold owner_document. rewrite (get_node_some _ _ _ Hn). cbn [rbind]. rewrite Ho. f_equal. apply upgrade_some. eauto.
  - intros l c (m & Hm & <-)%child_nodes_ok Hin. apply Hnone, HB. congruence.
  - intros p (m & mp & Hm & _ & Hp & _)%parent_node_some. apply Hnone, HD. congruence.
  - intros l k a Hl Hin. unfold attributes in Hl. rewrite (get_node_some _ _ _ Hn) in Hl. cbn [rbind] in Hl. injection Hl as <-. destruct (is_type NElement n); [|done]. destruct (n_ext n) as [| | | |al nss| |]; try done.
    apply Hnone. destruct Hx as [_ Hx]. by eapply Hx.
  - intros e He. unfold owner_element in He. rewrite (get_node_some _ _ _ Hn) in He. cbn [rbind] in He. destruct (n_ext n) as [|o| | | | |]; try done. injection He as He. apply upgrade_some in He as [He _]. by apply Hnone, Hx.
Qed.
Print Assumptions C54_closed.
(** Children of a new node come later than the node itself (attributes aside), so there are no cycles. *)
Lemma part_below E h evs h' r i c : reachable h -> read_events E evs h = (h', r) -> (h_next h <= i)%nat -> child h' i c ->
  (h_next h <= c)%nat /\ exists n, h_nodes h' !! i = Some n /\ (n_type n <> NAttribute -> (i < c)%nat).
Proof.
  intros Hr H Hi (n & Hn & Hin)%child_edge. apply read_part in H as (HP & _); [|intros; by apply reachable_none].
  destruct (pa_shape _ _ _ _ HP _ _ Hi (shapes_some _ _ _ Hn)) as (_ & HB & HC & _). cbn in *. split; [by apply HB|]. exists n. split; [done|]. intros Ht. destruct (HC Ht) as [_ HC2]. by destruct (HC2 c Hin).
Qed.
Lemma part_tc E h evs h' r i c : reachable h -> reachable h' -> read_events E evs h = (h', r) -> (h_next h <= i)%nat -> tc (child h') i c ->
  (h_next h <= c)%nat /\ exists n, h_nodes h' !! i = Some n /\ (n_type n <> NAttribute -> (i < c)%nat).
Proof.
  intros Hr Hr' H Hi Ht. induction Ht as [i c Hc|i j c Hc Ht IH]; [by eapply part_below|].
  destruct (part_below _ _ _ _ _ _ _ Hr H Hi Hc) as (Hj & n & Hn & Hlt). destruct (IH Hj) as (Hcn & nj & Hnj & Hltj). split; [done|]. exists n. split; [done|]. intros Hna. specialize (Hlt Hna).
  destruct (child_alive h' i j) as (nj' & Hnj' & Hcb & _); [by apply reachable_inv|done|]. assert (nj' = nj) as -> by congruence.
  assert (n_type nj <> NAttribute) as Htj by (intros E0; by rewrite E0 in Hcb). specialize (Hltj Htj). lia.
Qed.
Lemma new_no_cycle E h evs h' r i : reachable h -> reachable h' -> read_events E evs h = (h', r) -> (h_next h <= i)%nat -> ~ tc (child h') i i.
Proof.
  intros Hr Hr' H Hi Ht. destruct (part_tc _ _ _ _ _ _ _ Hr Hr' H Hi Ht) as (_ & n & Hn & Hlt).
  assert (n_type n <> NAttribute); [|lia || by (specialize (Hlt ltac:(done)); lia)].
  destruct (tc_last _ _ _ Ht) as (p & _ & Hp). destruct (child_alive h' p i) as (n' & Hn' & Hcb & _); [by apply reachable_inv|done|]. assert (n' = n) as -> by congruence. intros E0. by rewrite E0 in Hcb.
Qed.
Theorem C54_tree : forall E h evs h' d, reachable h -> wf_env E -> read_events E evs h = (h', POk d) ->
  no_cycle_below h' d /\
  forall p l, at_or_below h' d p -> child_nodes h' p = Ok l -> List.NoDup l /\ forall c, In c l <-> parent_node h' c = Ok (Some p).
Proof.
  intros E h evs h' d Hr W H. assert (Hr' : reachable h') by (by eapply read_reachable).
  pose proof H as HP. apply read_part in HP as (HP & (nd & Hd & Htd) & Hdd); [|intros; by apply reachable_none]. specialize (Hdd d eq_refl). subst d.
  assert (HB : forall p, at_or_below h' (h_next h) p -> (h_next h <= p)%nat /\ forall n, h_nodes h' !! p = Some n -> n_type n <> NAttribute).
  { intros p Hp. apply rtc_inv_r in Hp as [<-|(q & Hq & Hqp)]; [split; [lia|]; intros n Hn; congruence|]. split.
    - apply rtc_tc in Hq as [<-|Hq]; [by destruct (part_below _ _ _ _ _ _ _ Hr H (le_n _) Hqp)|]. destruct (part_tc _ _ _ _ _ _ _ Hr Hr' H (le_n _) Hq) as [Hlq _]. by destruct (part_below _ _ _ _ _ _ _ Hr H Hlq Hqp).
    - intros n Hn. destruct (child_alive h' q p) as (n' & Hn' & Hcb & _); [by apply reachable_inv|done|]. assert (n' = n) as -> by congruence. intros E0. by rewrite E0 in Hcb. }
  split; [intros p Hp; destruct (HB p Hp) as [Hlo _]; exact (new_no_cycle _ _ _ _ _ _ Hr Hr' H Hlo)|].
  intros p l Hp (n & Hn & <-)%child_nodes_ok. destruct (HB p Hp) as [Hlo Hna]. specialize (Hna n Hn).
  destruct (pa_shape _ _ _ _ HP _ _ Hlo (shapes_some _ _ _ Hn)) as (_ & _ & HC & _). destruct (HC Hna) as [Hnd HC2]. cbn in *. split; [done|]. intros c. split.
  - intros Hin. destruct (HC2 c Hin) as (_ & sc & (nc & Hnc & ->)%shapes_inv & Hpc). apply parent_node_some. exists nc, n. split; [done|]. split; [|done].
    destruct (child_alive h' p c) as (nc' & Hnc' & Hcb & _); [by apply reachable_inv|apply child_edge; eauto|]. assert (nc' = nc) as -> by congruence. intros E0. by rewrite E0 in Hcb.
  - intros (nc & np & Hc & _ & Hpp & Hnp)%parent_node_some. assert (np = n) as -> by congruence. apply reachable_inv in Hr'. by eapply inv_parent.
Qed.
Print Assumptions C54_tree.
(** States with consistent links, and states without cycles, stay so. *)
Theorem C54_acyclic : forall E h evs h' r, reachable h -> wf_env E -> read_events E evs h = (h', r) -> preturned r -> acyclic h -> acyclic h'.
Proof.
  intros E h evs h' r Hr W H Hret Ha x Hx. assert (Hr' : reachable h') by (by eapply C54_reachable).
  destruct (decide (h_next h <= x)%nat) as [Hlo|Hlt]; [exact (new_no_cycle _ _ _ _ _ _ Hr Hr' H Hlo Hx)|]. apply (Ha x).
  assert (G : forall a b, tc (child h') a b -> (a < h_next h)%nat -> tc (child h) a b); [|by apply G; [|lia]].
  pose proof H as HP. apply read_part in HP as (HP & _); [|intros; by apply reachable_none].
  assert (HE : forall a b, child h' a b -> (a < h_next h)%nat -> child h a b /\ (b < h_next h)%nat).
  { intros a b (n & Hn & Hin)%child_edge Hlt'. rewrite (pa_old _ _ _ _ HP) in Hn by done. assert (Hc : child h a b) by (apply child_edge; eauto). split; [done|].
    destruct (child_alive h a b) as (nb & Hb & _); [by apply reachable_inv|done|]. apply reachable_inv in Hr. by eapply inv_lt. }
  intros a b Ht. induction Ht as [a b Hc|a j b Hc Ht IH]; intros Hlt'; destruct (HE _ _ Hc Hlt') as [Hc' Hj]; [by apply tc_once|]. eapply tc_l; [done|by apply IH].
Qed.
Print Assumptions C54_acyclic.
Theorem C54_two_way : forall E h evs h' r, reachable h -> wf_env E -> read_events E evs h = (h', r) -> preturned r -> two_way h -> two_way h'.
Proof.
  intros E h evs h' r Hr W H Hret Htw. assert (Hr' : reachable h') by (by eapply C54_reachable). pose proof H as HP. apply read_part in HP as (HP & _); [|intros; by apply reachable_none].
  apply reachable_inv in Hr as HI. apply reachable_inv in Hr' as HI'.
  apply TW_two_way; [done|]. intros p np Hp Hna. destruct (decide (h_next h <= p)%nat) as [Hlo|Hlt].
  - destruct (pa_shape _ _ _ _ HP _ _ Hlo (shapes_some _ _ _ Hp)) as (_ & _ & HC & _). destruct (HC Hna) as [Hnd HC2]. split; [done|]. intros c nc Hin Hc. destruct (HC2 c Hin) as (_ & sc & Hsc & Hpc).
    rewrite (shapes_some _ _ _ Hc) in Hsc. by injection Hsc as <-.
  - rewrite (pa_old _ _ _ _ HP) in Hp by lia. destruct (Htw p (n_children np) (n_type np)) as [Hnd Hpar]; [apply child_nodes_ok; eauto|apply node_type_ok; eauto|done|]. split; [done|].
    intros c nc Hin Hc. destruct (child_alive h p c HI) as (nc0 & Hc0 & _); [apply child_edge; eauto|]. rewrite (C54_others_unchanged _ _ _ _ _ _ _ Hr H Hc0) in Hc. injection Hc as <-.
    apply Hpar in Hin. apply parent_node_some in Hin as (nc1 & np1 & Hc1 & _ & Hp1 & _). congruence.
Qed.
Print Assumptions C54_two_way.
Example C54_example : exists h h' d, reachable h /\ ~ acyclic h /\
  read_events env0 [EStart (Some (lit "a")) [PAttr (lit "k") (lit "1")]; EText (Some (lit "t")); EEmpty (Some (lit "b")) []; EError; EEnd; EComment (Some (lit "c"))] h = (h', POk d) /\
  child_nodes h' d = Ok [4; 9] /\ child_nodes h' 4 = Ok [7; 8] /\ parent_node h' 8 = Ok (Some 4) /\ owner_document h' 8 = Ok (Some d).
Proof.
  destruct (run env0 [OCreateDocument None None None options_new; OCreateElement 0 (lit "x"); OCreateElement 0 (lit "y"); OAppendChild 1 2; OAppendChild 2 1] empty_heap) as [h|] eqn:Hh; [|by vm_compute in Hh].
  exists h. do 2 eexists. split; [by eapply (run0_reachable _ h)|]. vm_compute in Hh. injection Hh as <-. split; [|by vm_compute].
  intros Ha. apply (Ha 1). eapply tc_l; [|apply tc_once]; apply child_edge; (eexists; split; [by vm_compute|by left]).
Qed.

(** ** C47, the parser: no mapping is recorded, whatever the attributes *)
Theorem C47_parser_records_nothing : forall E h evs h' r e q u, reachable h -> read_events E evs h = (h', r) -> h_nodes h !! e = None -> ~ maps h' e q u.
Proof.
  intros E h evs h' r e q u Hr H He (n & al & nss & Hn & Hx & Hin). assert (Hlo : (h_next h <= e)%nat) by (by eapply new_above).
  apply read_part in H as (HP & _); [|intros; by apply reachable_none]. destruct (pa_node _ _ _ _ HP e n Hlo Hn) as [_ Hf]. rewrite Hx in Hf. destruct Hf as [-> _]. done.
Qed.
Print Assumptions C47_parser_records_nothing.
(** Nor does any name carry a namespace. *)
Theorem C47_parser_names : forall E h evs h' r e nm, reachable h -> read_events E evs h = (h', r) -> h_nodes h !! e = None -> node_name h' e = Ok nm -> nm_ns nm = None.
Proof.
  intros E h evs h' r e nm Hr H He Hnm. unfold node_name, get_node in Hnm. destruct (h_nodes h' !! e) as [n|] eqn:Hn; [|done]. injection Hnm as <-.
  assert (Hlo : (h_next h <= e)%nat) by (by eapply new_above).
  apply read_part in H as (HP & _); [|intros; by apply reachable_none]. by destruct (pa_node _ _ _ _ HP e n Hlo Hn).
Qed.
Print Assumptions C47_parser_names.
