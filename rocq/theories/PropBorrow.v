(** * C76: the borrow checks of [RefCell] *)
From Coq Require Import Lia.
From Verif Require Import SpecBorrow ProofInv ProofWildInv ProofWildOps ProofSteps ProofBorrow PropName PropTree PropPanic PropPanicRead PropElem.

(** Apart from setting an attribute and reading a document, whatever the heap: the same, to the reason for a panic. *)
Theorem C76_exact : forall E h o, sets_attribute o = false -> b_exec E o [] h = exec E o h.
Proof. intros E h o. apply b_exec_eq. Qed.
Print Assumptions C76_exact.

Lemma live_lt h i n : WInv h -> h_nodes h !! i = Some n -> (i < h_next h)%nat. Proof. intros HI. apply (winv_lt h HI). Qed.
Lemma owner_lt h i n d : WInv h -> h_nodes h !! i = Some n -> n_owner n = Some d -> (d < h_next h)%nat.
Proof.
  intros HI Hn Hd. destruct (winv_node h HI i n Hn) as (_ & Ho & _). unfold wowner_ok in Ho. rewrite Hd in Ho.
  destruct (n_type n); try done; destruct Ho as (d' & [= <-] & ?); done.
Qed.
Lemma attribute_children h a na s ns : WInv h -> h_nodes h !! a = Some na -> h_nodes h !! s = Some ns -> n_type ns = NElement -> n_type na = NAttribute ->
  forall c, In c (n_children na) -> c <> s /\ forall nc x t m o, h_nodes h !! c = Some nc -> n_ext nc = XDocument x t m o -> n_owner na <> Some c.
Proof.
  intros HI Ha Hs Ts Ta c Hc. destruct (winv_node h HI a na Ha) as (_ & _ & _ & [Hk _] & _). destruct (Hk c Hc) as (_ & si & Hsi & Hl & _). cbn in Hl. rewrite Ta in Hl.
  unfold info in Hsi. destruct (h_nodes h !! c) as [nc|] eqn:Hnc; [|done]. injection Hsi as <-. cbn in Hl. split.
  - intros ->. assert (nc = ns) as -> by congruence. by rewrite Ts in Hl.
  - intros nc' x t m o [= <-] Hx. destruct (winv_node h HI c nc Hnc) as (He & _). unfold wext_ok in He. rewrite Hx in He. destruct He as [He _]. by rewrite He in Hl.
Qed.
Lemma set_node_cases E h e a : WInv h -> alive h e = true -> alive h a = true -> exists na, h_nodes h !! a = Some na /\
  agreeP (id_at h na) (b_set_attribute_node E e a [] h) (set_attribute_node E e a h).
Proof.
  intros HI [ne He]%alive_true [na Ha]%alive_true. exists na. split; [done|].
  destruct (decide (n_type ne = NElement)) as [Te|Te].
  - apply b_set_attribute_node_cases; [done|]. intros Ta. by eapply attribute_children.
  - left. unfold b_set_attribute_node, set_attribute_node. unfold bind at 1. rewrite getM_eq, (get_node_some _ _ _ He). unfold bind at 1. rewrite getM_eq, (get_node_some _ _ _ Ha).
    assert (Hf : is_type NElement ne = false) by (destruct (is_type NElement ne) eqn:Ht; [by apply is_type_true in Ht|done]). rewrite Hf. cbn [andb negb].
    rewrite (b_bind_ok _ _ false _ _ h); [done|]. rewrite (b_bind_ok _ _ _ _ _ _ (b_is_some [] h NElement e ne He (notin_nil _))). by rewrite Hf.
Qed.
Lemma id_counts h d nd k : h_nodes h !! d = Some nd -> is_id_attribute k match n_ext nd with XDocument _ _ _ o => has_assume_ids o | _ => false end = true -> counts_as_id h d k.
Proof.
  intros Hd. destruct (C12_id_attribute k) as (H1 & H2 & _). intros Hk.
  destruct (match n_ext nd with XDocument _ _ _ o => has_assume_ids o | _ => false end) eqn:Hl.
  - apply H2 in Hk. split; [done|]. right. right. destruct (n_ext nd) eqn:Hx; try done. eauto 10.
  - apply H1 in Hk as [Hk1 Hk2]. split; [done|]. tauto.
Qed.

(** On every state any calls can lead to, and for every call: the same heap and the same result, unless both panic. *)
Theorem C76_agree : forall E h o, wild h -> handles_live h o -> agree (b_exec E o [] h) (exec E o h).
Proof.
  intros E h o Hw Hl. pose proof (wild_inv h Hw) as HI. destruct (sets_attribute o) eqn:Hs; [|left; by apply C76_exact].
  destruct o; try done; cbn [exec b_exec].
  - unfold b_read_xml_op, read_xml_op. destruct (pagree_read E evs h) as [->|[(h1 & p1 & ->) (h2 & p2 & ->)]]; [by left|]. apply agree_panic.
  - apply b_out_agree, b_set_attribute_agree; [|intros ns d; by apply owner_lt]. destruct (proj1 (alive_true _ _) (Hl e (or_introl eq_refl))) as [n Hn]. by eapply live_lt.
  - apply b_out_agree, b_set_attribute_ns_agree; [|intros ns d; by apply owner_lt]. destruct (proj1 (alive_true _ _) (Hl e (or_introl eq_refl))) as [n Hn]. by eapply live_lt.
  - apply b_out_agree. destruct (set_node_cases E h e a HI) as (na & _ & [H|[_ H]]); [apply Hl; by left|apply Hl; right; by left|by left|by right].
Qed.
Print Assumptions C76_agree.

(** So the two ways of making calls lead to the same states, and these are among those of SpecWild. *)
Lemma agree_returned {A} (a b : heap * res A) h r : agree a b -> match r with Ok _ | Err _ => True | Panic _ | Diverge => False end -> a = (h, r) <-> b = (h, r).
Proof.
  intros [->|[(h1 & p1 & ->) (h2 & p2 & ->)]] Hr; [done|]. split; intros [= <- <-]; done.
Qed.
Lemma states_wild h : states exec h -> wild h.
Proof. induction 1 as [|h E o h' r _ IH HE _ Hx Hr]; [constructor|]. eapply wild_step; [exact IH|]. exists E, r. done. Qed.
Theorem C76_states : forall h, states (fun E o => b_exec E o []) h <-> states exec h.
Proof.
  intros h. split.
  - induction 1 as [|h E o h' r _ IH HE Hl Hx Hr]; [constructor|]. eapply states_call; [exact IH|done|exact Hl| |exact Hr]. apply (agree_returned _ _ h' r (C76_agree E h o (states_wild h IH) Hl) Hr), Hx.
  - induction 1 as [|h E o h' r Hst IH HE Hl Hx Hr]; [constructor|]. eapply states_call; [exact IH|done|exact Hl| |exact Hr]. apply (agree_returned _ _ h' r (C76_agree E h o (states_wild h Hst) Hl) Hr), Hx.
Qed.
Print Assumptions C76_states.

(** The panics of a call, with the borrow checks, are those of C68. *)
Lemma reachable_wild h : reachable h -> wild h.
Proof. induction 1 as [|h o h' _ IH (_ & E & r & HE & Hx & Hr)]; [constructor|]. eapply wild_step; [exact IH|]. by exists E, r. Qed.
Lemma agree_panics {A} (a b : heap * res A) : agree a b -> (exists p, a.2 = Panic p) <-> exists p, b.2 = Panic p.
Proof. intros [->|[(h1 & p1 & ->) (h2 & p2 & ->)]]; [done|]. cbn. split; eauto. Qed.
Theorem C76_panics : forall E h o, wf_env E -> reachable h -> typed_op h o = true -> handles_live h o -> op_fits h o -> one_call o = true ->
  ((exists p, (b_exec E o [] h).2 = Panic p) <-> call_faulty E h o).
Proof.
  intros E h o HE Hr Ht Hl Hf Ho. rewrite <- (C68_calls E h o HE Hr Ht Hl Hf Ho). apply agree_panics, C76_agree; [by apply reachable_wild|done].
Qed.
Print Assumptions C76_panics.
Theorem C76_read_panics : forall E h evs, wf_env E -> reachable h ->
  (exists p, (b_exec E (OReadXml evs) [] h).2 = Panic p) -> exists ev, In ev evs /\ bad_event E ev.
Proof.
  intros E h evs HE Hr Hp. eapply C68_read; [done|exact Hr|]. apply (agree_panics _ _ (C76_agree E h (OReadXml evs) (reachable_wild h Hr) (fun _ (H : In _ []) => match H with end))), Hp.
Qed.
Print Assumptions C76_read_panics.

(** A borrow fails only in a call that passes one node twice or sets an id attribute. *)
Lemma permitted_dec h p : permitted h p p \/ ~ permitted h p p.
Proof.
  destruct (node_type_of h p) as [t| | |] eqn:Ht; [|right; intros (t1 & t2 & H1 & _); by rewrite Ht in H1..].
  destruct (decide (t ∈ permitted_children t)) as [Hd|Hd]; [left; exists t, t; by rewrite <- elem_of_list_In|].
  right. intros (t1 & t2 & H1 & H2 & H3). rewrite Ht in H1, H2. injection H1 as ->. injection H2 as ->. by apply elem_of_list_In in H3.
Qed.
Lemma conflict_dec h o : sets_attribute o = false -> conflict h o \/ ~ conflict h o.
Proof.
  destruct o; intros Hs; try done; try (right; intros H; by inversion H).
  - destruct (decide (p = c)) as [<-|Hne]; [|right; intros H; by inversion H]. destruct (permitted_dec h p); [left; by constructor|right; intros H'; by inversion H'].
  - destruct (decide (p = c)) as [<-|Hne]; [|right; intros H; by inversion H]. destruct (permitted_dec h p); [left; by constructor|right; intros H'; by inversion H'].
  - destruct (decide (p = new)) as [<-|Hne]; [|right; intros H; by inversion H]. destruct (permitted_dec h p); [left; by constructor|right; intros H'; by inversion H'].
  - destruct (decide (e = a)) as [<-|Hne]; [left; constructor|right; intros H; by inversion H].
Qed.
Lemma out_borrow {A} (f : A -> option id) (m : B A) h : (b_out f m [] h).2 = Panic PBorrow -> (m [] h).2 = Panic PBorrow.
Proof. unfold b_out. rewrite b_bind_eq. unfold bind. destruct (m [] h) as [h' [a|e|p|]]; cbn; congruence. Qed.
Lemma new_borrow E h e k v : WInv h -> alive h e = true -> (b_set_new_attribute E e k v [] h).2 = Panic PBorrow ->
  exists d, owner_link h e = Some d /\ (d = e \/ counts_as_id h d k).
Proof.
  intros HI [n Hn]%alive_true Hp. pose proof (live_lt h e n HI Hn) as Hlt.
  destruct (b_set_new_attribute_cases E e k v h) as [Heq|[(d & nd & Hd & Hnd & Hid) _]]; [done|intros ns d; by apply owner_lt| |].
  - rewrite Heq in Hp. destruct (decide (owner_link h e = Some e)) as [Ho|Ho]; [by exists e; auto|]. by destruct (nb_set_new_attribute E e k v h Hlt Ho).
  - exists d. split; [done|]. right. by eapply id_counts.
Qed.
Theorem C76_conflicts : forall E h o, wf_env E -> wild h -> handles_live h o -> (forall evs, o <> OReadXml evs) ->
  (b_exec E o [] h).2 = Panic PBorrow -> conflict h o.
Proof.
  intros E h o HE Hw Hl Hnr Hp. pose proof (wild_inv h Hw) as HI. destruct (sets_attribute o) eqn:Hs.
  - destruct o; try done; cbn [b_exec] in Hp; [by edestruct Hnr| | |]; apply out_borrow in Hp.
    + unfold b_set_attribute in Hp. rewrite b_bind_eq in Hp. unfold bind, b_pure, lift in Hp. pose proof (rnb_from_str name) as Hq. destruct (name_from_str name) as [k| | |] eqn:Hk; cbn in Hp; [|congruence..].
      destruct (new_borrow E h e k value HI) as (d & Hd & Hc); [apply Hl; by left|done|]. by econstructor.
    + unfold b_set_attribute_ns in Hp. rewrite b_bind_eq in Hp. unfold bind, b_pure, lift in Hp. pose proof (rnb_new_ns uri qname) as Hq. destruct (name_new_ns uri qname) as [k| | |] eqn:Hk; cbn in Hp; [|congruence..].
      destruct (new_borrow E h e k value HI) as (d & Hd & Hc); [apply Hl; by left|done|]. by econstructor.
    + destruct (set_node_cases E h e a HI) as (na & Ha & [Heq|[(d & nd & Hd & Hnd & Hid) _]]); [apply Hl; by left|apply Hl; right; by left| |].
      * rewrite Heq in Hp. destruct (decide (owner_link h a = Some e)) as [Ho|Ho]; [|by destruct (nb_set_attribute_node E e a h Ho)].
        eapply cn_set_node; [|exact Ho|by left]. unfold node_name. by rewrite (get_node_some _ _ _ Ha).
      * eapply cn_set_node; [unfold node_name; by rewrite (get_node_some _ _ _ Ha)|unfold owner_link; by rewrite Ha, Hd|]. right. by eapply id_counts.
  - destruct (conflict_dec h o Hs) as [Hc|Hc]; [done|]. rewrite (C76_exact E h o Hs) in Hp. by destruct (nb_exec E h o HI HE Hs Hc).
Qed.
Print Assumptions C76_conflicts.

(** *** Examples *)
(** A document with an element, a text below it, and an attribute named xml:id that refers to an entity. *)
Definition ex_borrow_ops : list op :=
  [OCreateDocument None (Some (lit "r")) None options_new; OCreateText 0 (lit "t"); OAppendChild 1 2; OCreateAttribute 0 (lit "xml:id"); OCreateEntityReference 0 (lit "e");
   OSetNodeValue 4 (lit "&e;"); OAppendChild 3 4; OCreateAttributeWith 0 (lit "a") (lit "v")].
Definition ex_borrow : heap := default empty_heap (run env0 ex_borrow_ops empty_heap).
Example ex_borrow_reachable : reachable ex_borrow. Proof. apply (run0_reachable ex_borrow_ops). by vm_compute. Qed.
Example ex_borrow_states : states exec ex_borrow.
Proof.
  assert (L : forall ops h h', states exec h -> (fix go ops h := match ops with
      | [] => Some h
      | o :: t => if forallb (alive h) (handles o) then match exec env0 o h with (h1, Ok _) | (h1, Err _) => go t h1 | _ => None end else None end) ops h = Some h' -> states exec h').
  { induction ops as [|o ops IH]; intros h h' Hs H; [congruence|]. destruct (forallb (alive h) (handles o)) eqn:Hf; [|done].
    assert (Hl : handles_live h o) by (intros i Hi; rewrite forallb_forall in Hf; by apply Hf).
    destruct (exec env0 o h) as [h1 r] eqn:Hx. destruct r; try done; (eapply IH; [|exact H]); (eapply states_call; [exact Hs|apply wf_env0|exact Hl|exact Hx|done]). }
  eapply (L ex_borrow_ops empty_heap); [constructor|]. by vm_compute.
Qed.
Example C76_agree_example : handles_live ex_borrow (OSetAttributeNode 1 3) /\
  (b_exec env0 (OSetAttributeNode 1 3) [] ex_borrow).2 = Panic PBorrow /\ (exec env0 (OSetAttributeNode 1 3) ex_borrow).2 = Panic PExplicit.
Proof. split; [intros i [<-|[<-|[]]]; by vm_compute|]. split; by vm_compute. Qed.
(** The premises of C76_conflicts hold for each kind of conflict. *)
Example C76_conflicts_example :
  (b_exec env0 (OInsertBefore 1 1 (Some 2)) [] ex_borrow).2 = Panic PBorrow /\ (b_exec env0 (OAppendChild 1 1) [] ex_borrow).2 = Panic PBorrow /\
  (b_exec env0 (OReplaceChild 1 1 2) [] ex_borrow).2 = Panic PBorrow /\ (b_exec env0 (ORemoveAttributeNode 1 1) [] ex_borrow).2 = Panic PBorrow /\
  (b_exec env0 (OSetAttribute 1 (lit "xml:id") (lit "&e;")) [] ex_borrow).2 = Panic PBorrow /\
  (b_exec env0 (OSetAttributeNs 1 (lit "http://www.w3.org/XML/1998/namespace") (lit "xml:id") (lit "&e;")) [] ex_borrow).2 = Panic PBorrow /\
  conflict ex_borrow (OSetAttributeNode 1 3).
Proof.
  split; [by vm_compute|]. split; [by vm_compute|]. split; [by vm_compute|]. split; [by vm_compute|]. split; [by vm_compute|]. split; [by vm_compute|].
  apply C76_conflicts with (E := env0); [apply wf_env0|apply reachable_wild, ex_borrow_reachable|apply C76_agree_example|done|apply C76_agree_example].
Qed.
(** Without a conflict the same calls go through. *)
Example C76_exact_example : (b_exec env0 (OSetAttributeNode 1 6) [] ex_borrow).2 = Ok (Some 6) /\
  (b_exec env0 (OSetAttribute 1 (lit "xml:id") (lit "k")) [] ex_borrow).2 = Ok None /\ (b_exec env0 (OReplaceChild 1 6 2) [] ex_borrow).2 = Err HierarchyRequest /\
  (b_exec env0 (ORemoveChild 1 2) [] ex_borrow).2 = Ok (Some 2).
Proof. split_and!; by vm_compute. Qed.
Example C76_panics_example : typed_op ex_borrow (OAppendChild 1 1) = true /\ handles_live ex_borrow (OAppendChild 1 1) /\ op_fits ex_borrow (OAppendChild 1 1) /\
  call_faulty env0 ex_borrow (OAppendChild 1 1).
Proof.
  assert (L : handles_live ex_borrow (OAppendChild 1 1)) by (intros i [<-|[<-|[]]]; by vm_compute). split; [by vm_compute|]. split; [done|]. split; [done|].
  apply C76_panics; [apply wf_env0|apply ex_borrow_reachable|by vm_compute|done|done|done|]. exists PBorrow. by vm_compute.
Qed.
(** A document whose root has such an attribute cannot be read. *)
Example C76_read_example : (b_exec env0 (OReadXml [EStart (Some (lit "r")) [PAttr (lit "xml:id") (lit "&e;")]; EEnd]) [] empty_heap).2 = Panic PBorrow.
Proof. by vm_compute. Qed.
