(** * C35, C36: tag search and the document element *)
From Coq Require Import Lia.
From Verif Require Import SpecWalk ProofText ProofName PropName ProofInv ProofSteps ProofOps ProofTree ProofElem ProofWalk.

(** ** C35 *)
Lemma node_name_some h i n : h_nodes h !! i = Some n -> node_name h i = Ok (n_name n).
Proof. intros H. unfold node_name, get_node. by rewrite H. Qed.
Theorem C35_by_tag_name : forall h e tag, reachable h -> node_type_of h e = Ok NElement -> no_cycle_below h e ->
  exists t l, tree_of h e t /\ get_elements_by_tag_name h e tag = Ok l /\ keeps (tag_is h tag) (in_order (is_element h) t) l.
Proof.
  intros h e tag Hr (n & Hn & Ht)%node_type_ok Hcy. pose proof (reachable_inv h Hr) as HI.
  destruct (tree_exists h e HI ltac:(eauto) Hcy) as (t & Htree & Hd). exists t. eexists. split; [done|]. split.
  { unfold get_elements_by_tag_name. apply search_tree; [done|done|]. unfold walk_fuel. lia. }
  apply keeps_filter. intros x Hx. apply in_order_all in Hx. destruct (element_name h x HI Hx) as (nx & Hnx & _ & Hp).
  destruct (parsed_not_star _ Hp) as [Hs _]. unfold named, tag_is, tag_name_match. rewrite Hnx, (node_name_some _ _ _ Hnx).
  rewrite !orb_true_iff, !str_eqb_true. change WILD_CARD with star. split.
  - intros [[H|H]|H]; [right; eauto|done|by left].
  - intros [H|(k & [= <-] & H)]; auto.
Qed.
Print Assumptions C35_by_tag_name.
Theorem C35_by_tag_name_ns : forall h e uri local, reachable h -> node_type_of h e = Ok NElement -> no_cycle_below h e ->
  exists t l, tree_of h e t /\ get_elements_by_tag_name_ns h e uri local = Ok l /\ keeps (expanded_is h uri local) (in_order (is_element h) t) l.
Proof.
  intros h e uri local Hr (n & Hn & Ht)%node_type_ok Hcy. pose proof (reachable_inv h Hr) as HI.
  destruct (tree_exists h e HI ltac:(eauto) Hcy) as (t & Htree & Hd). exists t. eexists. split; [done|]. split.
  { unfold get_elements_by_tag_name_ns. apply search_tree; [done|done|]. unfold walk_fuel. lia. }
  apply keeps_filter. intros x Hx. apply in_order_all in Hx. destruct (element_name h x HI Hx) as (nx & Hnx & _ & Hp).
  destruct (parsed_not_star _ Hp) as [_ Hs]. unfold named, expanded_is, namespaced_name_match. rewrite Hnx, (node_name_some _ _ _ Hnx).
  change WILD_CARD with star. destruct (nm_ns (n_name nx)) as [u|] eqn:Hu; rewrite andb_true_iff, !orb_true_iff, !str_eqb_true; split.
  - intros [H1 H2]. exists (n_name nx). split; [done|]. rewrite Hu. split; [destruct H1 as [[-> | ->]| ->]; auto|]. destruct H2 as [[?|?]|?]; auto; done.
  - intros (k & [= <-] & H1 & H2). rewrite Hu in H1. split; [destruct H1 as [?|[[= ?]|[= ?]]]; auto|]. destruct H2; auto.
  - intros [H1 H2]. exists (n_name nx). split; [done|]. split; [by left|]. destruct H2 as [[?|?]|?]; auto; done.
  - intros (k & [= <-] & H1 & H2). rewrite Hu in H1. split; [by destruct H1 as [?|[?|?]]|]. destruct H2; auto.
Qed.
Print Assumptions C35_by_tag_name_ns.
(** On other nodes nothing is found. *)
Theorem C35_other_nodes : forall h e t, node_type_of h e = Ok t -> t <> NElement ->
  (forall tag, get_elements_by_tag_name h e tag = Ok []) /\ (forall u l, get_elements_by_tag_name_ns h e u l = Ok []).
Proof.
  intros h e t (n & Hn & <-)%node_type_ok Ht. apply is_type_false in Ht.
  split; intros; unfold get_elements_by_tag_name, get_elements_by_tag_name_ns, walk_fuel; cbn [search_elements]; rewrite (get_node_some _ _ _ Hn); cbn [rbind]; by rewrite Ht.
Qed.
Print Assumptions C35_other_nodes.
(** The tree exists exactly when the walk can end. *)
Theorem C35_tree_of_iff : forall h e, reachable h -> alive h e = true -> (exists t, tree_of h e t) <-> no_cycle_below h e.
Proof.
  intros h e Hr Ha%alive_true. split; [intros (t & Ht); by eapply tree_no_cycle|]. intros Hcy.
  destruct (tree_exists h e (reachable_inv h Hr) Ha Hcy) as (t & Ht & _). eauto.
Qed.
Print Assumptions C35_tree_of_iff.
(** With links that agree (C27) nothing is found twice. *)
Lemma below_type h e x : Inv h -> node_type_of h e = Ok NElement -> at_or_below h e x -> exists t, node_type_of h x = Ok t /\ t <> NAttribute.
Proof.
  intros HI He Hx. apply rtc_inv_r in Hx as [<-|(y & _ & Hyx)]; [by eexists|].
  destruct Hyx as (l & Hl & Hin). apply child_nodes_ok in Hl as (ny & Hy & <-). destruct (inv_node h HI y ny Hy) as (_ & _ & _ & (Hc & _) & _).
  destruct (Hc x Hin) as (_ & s & Hs & Hal & _). apply info_inv in Hs as (nx & Hnx & <-). exists (n_type nx). split; [apply node_type_ok; eauto|].
  cbn in Hal. intros Ht. rewrite Ht in Hal. by destruct (n_type ny).
Qed.
Lemma below_meet h e c x : (forall p q y, at_or_below h e p -> child h p y -> child h q y -> at_or_below h e q -> p = q) ->
  at_or_below h e c -> at_or_below h c x -> forall c2, at_or_below h e c2 -> at_or_below h c2 x -> at_or_below h c c2 \/ at_or_below h c2 c.
Proof.
  intros Hu Hec Hcx. revert Hec. apply (rtc_ind_r (R := child h) (fun x => at_or_below h e c -> forall c2, at_or_below h e c2 -> at_or_below h c2 x -> at_or_below h c c2 \/ at_or_below h c2 c) c); [| |exact Hcx].
  - intros _ c2 _ H. by right.
  - intros y z Hcy Hyz IH Hec c2 He2 H2z. apply rtc_inv_r in H2z as [->|(q & H2q & Hqz)].
    + left. eapply rtc_r; [exact Hcy|done].
    + assert (y = q) as <-; [|by apply IH]. eapply Hu; [|exact Hyz|exact Hqz|]; eapply rtc_transitive; [exact Hec|exact Hcy|exact He2|exact H2q].
Qed.
Lemma in_order_below h p i t : tree_of h i t -> forall x, In x (in_order p t) -> at_or_below h i x.
Proof.
  revert i t. apply (tree_of_ind' h (fun i t => forall x, In x (in_order p t) -> at_or_below h i x)). intros i cs ts Hc Hf IH x. cbn. destruct (p i); [|done].
  intros [<-|Hx]; [constructor|]. assert (G : exists c, In c cs /\ at_or_below h c x).
  { clear Hc Hf. induction IH as [|c t cs ts Hct _ IH]; [done|]. cbn in Hx. apply in_app_iff in Hx as [Hx|Hx]; [exists c; split; [by left|auto]|].
    destruct (IH Hx) as (c' & Hin & Hb). exists c'. split; [by right|done]. }
  destruct G as (c & Hin & Hb). eapply rtc_l; [|exact Hb]. by exists cs.
Qed.
Lemma in_order_nodup h e p : (forall p q y, at_or_below h e p -> child h p y -> child h q y -> at_or_below h e q -> p = q) ->
  (forall y l, at_or_below h e y -> child_nodes h y = Ok l -> List.NoDup l) -> no_cycle_below h e ->
  forall i t, tree_of h i t -> at_or_below h e i -> List.NoDup (in_order p t).
Proof.
  intros Hu Hnd Hcy. apply (tree_of_ind' h (fun i t => at_or_below h e i -> List.NoDup (in_order p t))). intros i cs ts Hc Hf IH He. cbn. destruct (p i); [|constructor].
  assert (Hch : forall c, In c cs -> child h i c) by (intros c Hin; by exists cs).
  constructor.
  { intros Hin. apply (Hcy i He). assert (G : exists c, In c cs /\ at_or_below h c i).
    { clear -Hin Hf. induction Hf as [|c t cs ts Hct _ IHf]; [done|]. cbn in Hin. apply in_app_iff in Hin as [H|H]; [exists c; split; [by left|by eapply in_order_below]|].
      destruct (IHf H) as (c' & ? & ?). exists c'. split; [by right|done]. }
    destruct G as (c & H1 & H2). eapply tc_rtc_r; [apply tc_once, Hch, H1|exact H2]. }
  pose proof (Hnd i cs He Hc) as Hcs. clear Hc. induction IH as [|c t cs ts Hct _ IH]; [constructor|]. cbn. inversion Hf as [|c' t' cs' ts' Htc Hf']; subst.
  assert (Hec : at_or_below h e c) by (eapply rtc_r; [exact He|apply Hch; by left]).
  inversion Hcs as [|? ? Hnin Hcs']; subst. apply NoDup_ListNoDup, NoDup_app. split; [apply NoDup_ListNoDup; by apply Hct|]. split.
  2:{ apply NoDup_ListNoDup. apply IH; [done|intros c' Hc'; apply Hch; by right|done]. }
  intros x Hx1%elem_of_list_In Hx2%elem_of_list_In.
  assert (G : exists c2, In c2 cs /\ at_or_below h c2 x).
  { clear -Hx2 Hf'. induction Hf' as [|c t cs ts Hct _ IHf]; [done|]. cbn in Hx2. apply in_app_iff in Hx2 as [H|H]; [exists c; split; [by left|by eapply in_order_below]|].
    destruct (IHf H) as (c' & ? & ?). exists c'. split; [by right|done]. }
  destruct G as (c2 & Hin2 & Hb2). assert (Hne : c <> c2) by (intros ->; done). apply (in_order_below h p c t Htc) in Hx1.
  assert (Hec2 : at_or_below h e c2) by (eapply rtc_r; [exact He|apply Hch; by right]).
  assert (Hsw : forall a b, child h i a -> child h i b -> a <> b -> at_or_below h e a -> at_or_below h a b -> False).
  { intros a b Ha Hb Hab Hea Hr. apply rtc_inv_r in Hr as [->|(q & Haq & Hqb)]; [done|].
    assert (q = i) as -> by (eapply Hu; [|exact Hqb|exact Hb|done]; eapply rtc_transitive; [exact Hea|exact Haq]). apply (Hcy i He). eapply tc_rtc_r; [apply tc_once; exact Ha|exact Haq]. }
  destruct (below_meet h e c x Hu Hec Hx1 c2 Hec2 Hb2) as [H|H].
  - eapply (Hsw c c2); try done; apply Hch; [by left|by right].
  - eapply (Hsw c2 c); try done; apply Hch; [by right|by left].
Qed.
Lemma keeps_nodup {A} (P : A -> Prop) l l' : keeps P l l' -> List.NoDup l -> List.NoDup l' /\ incl l' l.
Proof.
  induction 1 as [|x l l' Hx _ IH|x l l' Hx _ IH]; intros Hnd; [split; [exact Hnd|intros y Hy; exact Hy]|inversion Hnd as [|? ? Hn0 Hn1]; subst; destruct (IH Hn1) as [H1 H2]..].
  - split; [constructor; [|done]; intros Hin; auto|]. intros y [<-|Hy]; [by left|right; auto].
  - split; [done|]. intros y Hy. right. auto.
Qed.
Theorem C35_once : forall h e tag l, reachable h -> node_type_of h e = Ok NElement -> no_cycle_below h e -> two_way h ->
  get_elements_by_tag_name h e tag = Ok l -> List.NoDup l.
Proof.
  intros h e tag l Hr He Hcy Htw Hl. destruct (C35_by_tag_name h e tag Hr He Hcy) as (t & l' & Ht & Hl' & Hk). rewrite Hl in Hl'. injection Hl' as <-.
  eapply keeps_nodup; [exact Hk|]. pose proof (reachable_inv h Hr) as HI. eapply (in_order_nodup h e); [| |done|exact Ht|constructor].
  - intros p q y Hp (lp & Hlp & Hinp) (lq & Hlq & Hinq) Hq.
    destruct (below_type h e p HI He Hp) as (tp & Htp & Hnp). destruct (below_type h e q HI He Hq) as (tq & Htq & Hnq).
    destruct (Htw p lp tp Hlp Htp Hnp) as [_ H1]. destruct (Htw q lq tq Hlq Htq Hnq) as [_ H2]. apply H1 in Hinp. apply H2 in Hinq. congruence.
  - intros y ly Hy Hly. destruct (below_type h e y HI He Hy) as (ty & Hty & Hny). by apply (Htw y ly ty).
Qed.
Print Assumptions C35_once.
Definition ex_walk_ops : list op :=
  [ OCreateDocument None (Some (lit "r")) None options_new; OCreateElement 0 (lit "a"); OCreateElementNs 0 (lit "urn:u") (lit "p:a"); OCreateElement 0 (lit "a");
    OCreateText 0 (lit "t"); OCreateElement 0 (lit "b"); OAppendChild 1 2; OAppendChild 2 3; OAppendChild 2 5; OAppendChild 1 6; OAppendChild 6 4; OCreateComment 0 (lit "c") ].
Definition ex_walk : heap := default empty_heap (run env0 ex_walk_ops empty_heap).
Example ex_walk_reachable : reachable ex_walk.
Proof. apply (run0_reachable ex_walk_ops). by vm_compute. Qed.
Example ex_walk_tree : tree_of ex_walk 1 (Tr 1 [Tr 2 [Tr 3 []; Tr 5 []]; Tr 6 [Tr 4 []]]).
Proof. repeat (first [constructor|eapply tree_intro; [by vm_compute|]]). Qed.
Example C35_example : no_cycle_below ex_walk 1 /\ get_elements_by_tag_name ex_walk 1 (lit "a") = Ok [2; 4] /\ get_elements_by_tag_name ex_walk 1 (lit "*") = Ok [1; 2; 3; 6; 4]
  /\ get_elements_by_tag_name_ns ex_walk 1 (lit "urn:u") (lit "a") = Ok [3] /\ get_elements_by_tag_name_ns ex_walk 1 (lit "*") (lit "a") = Ok [2; 3; 4].
Proof. split; [eapply tree_no_cycle; exact ex_walk_tree|]. by vm_compute. Qed.

(** ** C36 *)
Theorem C36_document_element : forall h d l, child_nodes h d = Ok l ->
  document_element h d = Ok (match l with [] => None | c :: _ => Some c end).
Proof.
  intros h d l (n & Hn & <-)%child_nodes_ok. unfold document_element, first_child. rewrite (get_node_some _ _ _ Hn). cbn [rbind]. by destruct (n_children n).
Qed.
Print Assumptions C36_document_element.
(** Searches of the whole document start there, and find nothing if it is not an element. *)
Theorem C36_search_from_first_child : forall h d c l, child_nodes h d = Ok (c :: l) ->
  (forall tag, document_get_elements_by_tag_name h d tag = get_elements_by_tag_name h c tag) /\
  (forall u n, document_get_elements_by_tag_name_ns h d u n = get_elements_by_tag_name_ns h c u n).
Proof.
  intros h d c l H. pose proof (C36_document_element h d _ H) as Hd. unfold document_get_elements_by_tag_name, document_get_elements_by_tag_name_ns.
  rewrite Hd. done.
Qed.
Print Assumptions C36_search_from_first_child.
Theorem C36_search_misses : forall h d c l t, child_nodes h d = Ok (c :: l) -> node_type_of h c = Ok t -> t <> NElement ->
  (forall tag, document_get_elements_by_tag_name h d tag = Ok []) /\ (forall u n, document_get_elements_by_tag_name_ns h d u n = Ok []).
Proof.
  intros h d c l t H Ht Hne. destruct (C36_search_from_first_child h d c l H) as [H1 H2]. destruct (C35_other_nodes h c t Ht Hne) as [H3 H4].
  split; intros; [rewrite H1|rewrite H2]; auto.
Qed.
Print Assumptions C36_search_misses.
(** The DOM promises the one element child. *)
Theorem C36_is_the_element_refuted : exists h d c e, reachable h /\ child_nodes h d = Ok [c; e] /\ node_type_of h e = Ok NElement /\
  document_element h d = Ok (Some c) /\ node_type_of h c = Ok NComment /\ document_get_elements_by_tag_name h d (lit "*") = Ok [].
Proof.
  exists (default empty_heap (run env0 [OCreateDocument None (Some (lit "r")) None options_new; OCreateComment 0 (lit "c"); OInsertBefore 0 2 (Some 1)] empty_heap)), 0, 2, 1.
  split; [|by vm_compute].
  apply (run0_reachable [OCreateDocument None (Some (lit "r")) None options_new; OCreateComment 0 (lit "c"); OInsertBefore 0 2 (Some 1)]). by vm_compute.
Qed.
Print Assumptions C36_is_the_element_refuted.
Example C36_example : child_nodes ex_walk 0 = Ok [1] /\ document_element ex_walk 0 = Ok (Some 1) /\ document_get_elements_by_tag_name ex_walk 0 (lit "b") = Ok [6].
Proof. by vm_compute. Qed.
