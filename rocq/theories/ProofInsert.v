(** * ProofInsert: insert_before, remove_child, replace_child, siblings *)
From Coq Require Import Lia.
From Verif Require Import SpecTree ProofText ProofName ProofInv ProofSteps ProofOps ProofTree.

Lemma without_first_delete c l k : position c l = Some k -> without_first c l (delete k l).
Proof.
  intros [Hk Hf]%position_lookup. rewrite delete_take_drop.
  rewrite <- (take_drop_middle l k c Hk) at 1. constructor.
  intros Hin%elem_of_list_In. apply elem_of_list_lookup_1 in Hin as [j Hj].
  assert (j < k)%nat. { apply lookup_lt_Some in Hj. rewrite take_length in Hj. lia. }
  rewrite lookup_take in Hj by done. by eapply Hf.
Qed.
Lemma position_app c a b : ~ In c a -> position c (a ++ c :: b) = Some (length a).
Proof.
  intros H. induction a as [|x a IH]; cbn.
  - by rewrite bool_decide_true.
  - rewrite bool_decide_false by (intros ->; apply H; by left). rewrite IH; [done|]. intros ?; apply H; by right.
Qed.
Lemma without_first_fun c l l1 l2 : without_first c l l1 -> without_first c l l2 -> l1 = l2.
Proof.
  intros [a b Ha] H. inversion H as [a' b' Ha' E]. pose proof (position_app c a b Ha) as P. rewrite <- E in P.
  rewrite (position_app c a' b' Ha') in P. injection P as P. apply app_inj_1 in E as [-> E]; [|done]. by injection E as ->.
Qed.
Lemma parent_node_eq h c nc : h_nodes h !! c = Some nc -> n_type nc <> NAttribute -> parent_node h c = Ok (upgrade h (n_parent nc)).
Proof.
  intros Hc Ht. unfold parent_node. rewrite (get_node_some _ _ _ Hc). cbn [rbind]. apply is_type_false in Ht. by rewrite Ht.
Qed.

Record inserted (h h' : heap) (p c : id) (r : option id) (np nc : node) (l0 : list id) (k : nat) (np' nc' : node) : Prop := {
  is_p : h_nodes h !! p = Some np;
  is_c : h_nodes h !! c = Some nc;
  is_p' : h_nodes h' !! p = Some np';
  is_c' : h_nodes h' !! c = Some nc';
  is_ne : p <> c;
  is_sp : same_but_children np np';
  is_sc : same_but_parent nc nc';
  is_par : n_parent nc' = Some p;
  is_al : is_child_allowed (n_type np) (n_type nc) = true;
  is_l0 : parent_node h c = Ok (Some p) -> without_first c (n_children np) l0;
  is_l0' : parent_node h c <> Ok (Some p) -> l0 = n_children np;
  is_ch : n_children np' = take k l0 ++ c :: drop k l0;
  is_k : match r with None => k = length l0 | Some y => position y (n_children np) = Some k /\ (k <= length l0)%nat end;
  is_frame : forall i, i <> p -> i <> c -> parent_node h c <> Ok (Some i) -> h_nodes h' !! i = h_nodes h !! i;
  is_old : forall q, q <> p -> parent_node h c = Ok (Some q) -> exists nq nq', h_nodes h !! q = Some nq /\ h_nodes h' !! q = Some nq' /\
    same_but_children nq nq' /\ without_first c (n_children nq) (n_children nq');
  is_next : h_next h' = h_next h;
  is_own1 : n_type np = NDocument -> n_owner nc = Some p;
  is_own2 : n_type np <> NDocument -> n_owner nc = n_owner np;
  is_sec : no_second h np nc }.

Lemma insert_ok h h' p c r x : Inv h -> insert_before p c r h = (h', Ok x) ->
  x = c /\ exists np nc l0 k np' nc', inserted h h' p c r np nc l0 k np' nc'.
Proof.
  intros HI H. destruct (insert_before_inv h h' p c r _ HI H Logic.I) as (np & nc & Hp & Hc & [(e & ? & _)|([= ->] & h1 & np1 & nc1 & k &
    Hto & Hp1 & Hc1 & Hne & -> & Hk & Hkr & Hal & Ho1 & Ho2 & Hsec)]); [done|]. split; [done|].
  destruct (child_type_docs _ _ Hal) as (_ & _ & Hna & _). pose proof (parent_node_eq h c nc Hc Hna) as Hpar.
  exists np, nc, (n_children np1), k, (set_children (take k (n_children np1) ++ c :: drop k (n_children np1)) np1), (set_parent (Some p) nc1).
  assert (Hkk : match r with None => k = length (n_children np1) | Some y => position y (n_children np) = Some k /\ (k <= length (n_children np1))%nat end)
    by (destruct r; [by split|done]).
  assert (Hp' : h_nodes (attached h1 p c np1 nc1 k) !! p = Some (set_children (take k (n_children np1) ++ c :: drop k (n_children np1)) np1))
    by apply lookup_upd.
  assert (Hc' : h_nodes (attached h1 p c np1 nc1 k) !! c = Some (set_parent (Some p) nc1))
    by (unfold attached; rewrite lookup_upd_ne by done; apply lookup_upd).
  assert (Hoth : forall i, i <> p -> i <> c -> h_nodes (attached h1 p c np1 nc1 k) !! i = h_nodes h1 !! i)
    by (intros i ??; unfold attached; rewrite !lookup_upd_ne by done; done).
  revert Hp1 Hc1. destruct Hto as [Hup|q nq kq Hup Hq Hqc Hkq]; intros Hp1 Hc1.
  - assert (np1 = np) by congruence. assert (nc1 = nc) by congruence. subst np1 nc1. rewrite Hup in Hpar.
    split; try done; rewrite ?Hpar; try done. intros i Hi1 Hi2 _. by apply Hoth.
  - rewrite Hup in Hpar. unfold removed in Hp1, Hc1. rewrite lookup_upd in Hc1. injection Hc1 as <-. rewrite lookup_upd_ne in Hp1 by done.
    assert (Hoth2 : forall i, i <> p -> i <> c -> i <> q -> h_nodes (attached (removed h q c nq nc kq) p c np1 (set_parent None nc) k) !! i = h_nodes h !! i).
    { intros i ???. rewrite Hoth by done. unfold removed. by rewrite !lookup_upd_ne by done. }
    destruct (decide (q = p)) as [->|Hqp].
    + rewrite lookup_upd in Hp1. injection Hp1 as <-. assert (nq = np) by congruence. subst nq.
      split; try done; rewrite ?Hpar.
      * intros _. cbn. by apply without_first_delete.
      * intros i Hi1 Hi2 _. by apply Hoth2.
      * intros q' Hq' [= ->]. done.
    + rewrite lookup_upd_ne in Hp1 by done. assert (np1 = np) by congruence. subst np1. split; try done; rewrite ?Hpar.
      * congruence.
      * intros i Hi1 Hi2 Hi3. apply Hoth2; [done|done|congruence].
      * intros q' Hq' [= <-]. exists nq, (set_children (delete kq (n_children nq)) nq). split; [done|].
        split; [rewrite Hoth by done; unfold removed; rewrite lookup_upd_ne by congruence; apply lookup_upd|]. split; [done|].
        by apply without_first_delete.
Qed.

(** ** Placement *)
Lemma take_app_len {A} (l1 l2 : list A) : take (length l1) (l1 ++ l2) = l1. Proof. apply take_app. Qed.
Lemma place_before (l1 l2 : list id) (c : id) : take (length l1) (l1 ++ l2) ++ c :: drop (length l1) (l1 ++ l2) = l1 ++ c :: l2.
Proof. by rewrite take_app, drop_app. Qed.
Lemma place_end (l : list id) c : take (length l) l ++ c :: drop (length l) l = l ++ [c].
Proof. by rewrite take_ge, drop_ge by lia. Qed.
Lemma NoDup_app_notin (l1 l2 : list id) (x : id) : List.NoDup (l1 ++ x :: l2) -> ~ In x l1 /\ ~ In x l2.
Proof.
  intros H. apply NoDup_remove_2 in H. rewrite in_app_iff in H. tauto.
Qed.

(** ** remove_child *)
Lemma remove_ok h h' p c np nc k : h_nodes h !! p = Some np -> h_nodes h !! c = Some nc -> p <> c -> position c (n_children np) = Some k ->
  h' = removed h p c np nc k ->
  exists np' nc', h_nodes h' !! p = Some np' /\ h_nodes h' !! c = Some nc' /\ same_but_children np np' /\ same_but_parent nc nc' /\
    n_parent nc' = None /\ without_first c (n_children np) (n_children np') /\ n_children np' = delete k (n_children np) /\
    (forall i, i <> p -> i <> c -> h_nodes h' !! i = h_nodes h !! i) /\ h_next h' = h_next h.
Proof.
  intros Hp Hc Hne Hk ->. exists (set_children (delete k (n_children np)) np), (set_parent None nc).
  unfold removed. rewrite lookup_upd. rewrite lookup_upd_ne by done. rewrite lookup_upd. split_and!; try done.
  - by apply without_first_delete.
  - intros i Hi1 Hi2. by rewrite !lookup_upd_ne by done.
Qed.

(** ** Refusals *)
Lemma child_iff h p np x : h_nodes h !! p = Some np -> child h p x <-> In x (n_children np).
Proof. intros Hp. rewrite child_edge. split; [intros (n & Hn & H); congruence|eauto]. Qed.
Lemma type_iff h i n t : h_nodes h !! i = Some n -> node_type_of h i = Ok t <-> n_type n = t.
Proof. intros Hn. rewrite node_type_ok. split; [intros (m & Hm & H); congruence|eauto]. Qed.
Lemma permitted_iff h p c np nc : h_nodes h !! p = Some np -> h_nodes h !! c = Some nc ->
  permitted h p c <-> is_child_allowed (n_type np) (n_type nc) = true.
Proof.
  intros Hp Hc. rewrite permitted_allowed. split.
  - intros (tp & tc & H1 & H2 & H3). apply (type_iff h p np) in H1; [|done]. apply (type_iff h c nc) in H2; [|done]. by subst.
  - intros H. exists (n_type np), (n_type nc). split; [by apply (type_iff h p np)|]. split; [by apply (type_iff h c nc)|done].
Qed.
Lemma second_iff h p c np nc : h_nodes h !! p = Some np -> h_nodes h !! c = Some nc -> no_second h np nc <-> ~ second_element h p c.
Proof.
  intros Hp Hc. unfold no_second, second_element. rewrite (type_iff h p np _ Hp), (type_iff h c nc _ Hc). split.
  - intros H (H1 & H2 & x & Hx & Ht). apply (child_iff h p np) in Hx; [|done]. apply node_type_ok in Ht as (nx & Hnx & Ht). by eapply H.
  - intros H H1 H2 y ny Hy Hny Ht. apply H. split; [done|]. split; [done|]. exists y. split; [by apply (child_iff h p np)|].
    by apply (type_iff h y ny).
Qed.
Lemma document_of_eq h i n : h_nodes h !! i = Some n -> document_of h i = if is_type NDocument n then Some i else n_owner n.
Proof.
  intros Hn. unfold document_of, node_type_of, owner_link. rewrite (get_node_some _ _ _ Hn), Hn. cbn [rbind].
  destruct (is_type NDocument n) eqn:E; [apply is_type_true in E; by rewrite E|]. apply is_type_false in E. by destruct (n_type n).
Qed.
Lemma csd_document h p c np nc : Inv h -> h_nodes h !! p = Some np -> h_nodes h !! c = Some nc ->
  is_child_allowed (n_type np) (n_type nc) = true ->
  (check_same_document h p c = Ok tt -> document_of h p = document_of h c) /\
  (check_same_document h p c = Err WrongDocument -> document_of h p <> document_of h c).
Proof.
  intros HI Hp Hc Hal. destruct (child_type_docs _ _ Hal) as (Hd1 & Hd2 & _).
  rewrite (document_of_eq h p np Hp), (document_of_eq h c nc Hc).
  assert (Hcd : is_type NDocument nc = false) by (by apply is_type_false). rewrite Hcd. split.
  - intros H. destruct (csd_ok h p c np nc HI Hp Hc Hd1 Hd2 H) as [H1 H2]. destruct (is_type NDocument np) eqn:E.
    + apply is_type_true in E. symmetry. auto.
    + apply is_type_false in E. symmetry. auto.
  - unfold check_same_document. rewrite (get_node_some _ _ _ Hp), (get_node_some _ _ _ Hc). cbn [rbind].
    destruct (is_type NDocument np).
    + destruct (n_owner nc) as [d|]; [|done]. destruct (upgrade h (Some d)) as [d'|] eqn:Hu; [|done].
      apply upgrade_some in Hu as [[= <-] _]. cbn. destruct (bool_decide_reflect (p = d)); congruence.
    + destruct (n_owner np) as [a|], (n_owner nc) as [b|]; try done.
      destruct (upgrade h (Some a)) as [a'|] eqn:Hu; [|done]. apply upgrade_some in Hu as [[= <-] _].
      destruct (upgrade h (Some b)) as [b'|] eqn:Hu2; [|done]. apply upgrade_some in Hu2 as [[= <-] _].
      cbn. destruct (bool_decide_reflect (a = b)); congruence.
Qed.
Lemma fails_refused h p c r np nc e : Inv h -> h_nodes h !! p = Some np -> h_nodes h !! c = Some nc ->
  insert_fails h p c r np nc e -> refused h p c r e.
Proof.
  intros HI Hp Hc Hf. destruct Hf as [Hal|x nx Hal H1 H2 Hx Hnx Ht|x Hal Hs -> Hx|Hal Hs Hr Hcsd|q nq Hal Hs Hr Hcsd Hq Hnq Hni].
  - apply rf_type. rewrite (permitted_iff h p c np nc) by done. congruence.
  - apply rf_second; [by apply (permitted_iff h p c np nc)|]. split; [by apply (type_iff h p np)|]. split; [by apply (type_iff h c nc)|].
    exists x. split; [by apply (child_iff h p np)|by apply (type_iff h x nx)].
  - eapply rf_ref; [by apply (permitted_iff h p c np nc)|by apply (second_iff h p c np nc)|done|]. by rewrite (child_iff h p np).
  - apply rf_document; [by apply (permitted_iff h p c np nc)|by apply (second_iff h p c np nc)| |].
    + intros x Hx. rewrite (child_iff h p np) by done. auto.
    + by apply (csd_document h p c np nc).
  - apply (rf_stale _ _ _ _ q); [by apply (permitted_iff h p c np nc)|by apply (second_iff h p c np nc)| | | |].
    + intros x Hx. rewrite (child_iff h p np) by done. auto.
    + by apply (csd_document h p c np nc).
    + apply parent_node_some. exists nc, nq. split; [done|]. split; [|done]. by destruct (child_type_docs _ _ Hal) as (_ & _ & ? & _).
    + by rewrite (child_iff h q nq).
Qed.
Lemma refused_fun h p c r e e' : refused h p c r e -> refused h p c r e' -> e = e'.
Proof. intros [] []; subst; try done; try congruence; naive_solver. Qed.
Lemma ok_not_refused h h' p c r x e : Inv h -> insert_before p c r h = (h', Ok x) -> ~ refused h p c r e.
Proof.
  intros HI H. destruct (insert_ok h h' p c r x HI H) as (_ & np & nc & l0 & k & np' & nc' & HS).
  pose proof (is_p _ _ _ _ _ _ _ _ _ _ _ HS) as Hp. pose proof (is_c _ _ _ _ _ _ _ _ _ _ _ HS) as Hc. pose proof (is_al _ _ _ _ _ _ _ _ _ _ _ HS) as Hal.
  pose proof (is_sec _ _ _ _ _ _ _ _ _ _ _ HS) as Hsec. pose proof (is_k _ _ _ _ _ _ _ _ _ _ _ HS) as Hk.
  assert (Hdoc : document_of h p = document_of h c).
  { rewrite (document_of_eq h p np Hp), (document_of_eq h c nc Hc). destruct (child_type_docs _ _ Hal) as (Hd1 & _).
    assert (Hcd : is_type NDocument nc = false) by (by apply is_type_false). rewrite Hcd.
    destruct (is_type NDocument np) eqn:E; [apply is_type_true in E|apply is_type_false in E]; symmetry.
    - by eapply is_own1. - by eapply is_own2. }
  apply (permitted_iff h p c np nc) in Hal; [|done|done]. apply (second_iff h p c np nc) in Hsec; [|done|done].
  intros [Hn|Hn Hse|y Hn Hse -> Hy|Hn Hse Hy Hd|q Hn Hse Hy Hd Hq Hni]; try done.
  - apply Hy. rewrite (child_iff h p np) by done. destruct Hk as [Hk _]. apply position_lookup in Hk as [Hk _].
    by eapply elem_of_list_In, elem_of_list_lookup_2.
  - destruct (decide (q = p)) as [->|Hne].
    + apply Hni. rewrite (child_iff h p np) by done. pose proof (is_l0 _ _ _ _ _ _ _ _ _ _ _ HS Hq) as Hw.
      inversion Hw as [a b Ha E]. rewrite in_app_iff. right. by left.
    + destruct (is_old _ _ _ _ _ _ _ _ _ _ _ HS q Hne Hq) as (nq & nq' & Hnq & _ & _ & Hw).
      apply Hni. rewrite (child_iff h q nq) by done. inversion Hw as [a b Ha E]. rewrite in_app_iff. right. by left.
Qed.

(** It returns when the two documents are alive. *)
Lemma insert_returns h p c r np nc : Inv h -> h_nodes h !! p = Some np -> h_nodes h !! c = Some nc -> p <> c ->
  (forall d, document_of h p = Some d -> alive h d = true) -> (forall d, document_of h c = Some d -> alive h d = true) ->
  exists h' x, insert_before p c r h = (h', x) /\ returned x.
Proof.
  intros HI Hp Hc Hne Hdp Hdc. unfold insert_before.
  destruct (is_child_allowed (n_type np) (n_type nc)) eqn:Hal.
  2:{ exists h, (Err HierarchyRequest). unfold bind, getM, lift. by rewrite (get_node_some _ _ _ Hp), (get_node_some _ _ _ Hc), Hal. }
  destruct (child_type_docs _ _ Hal) as (Hd1 & Hd2 & Hd3 & Hd4).
  assert (Hcd : is_type NDocument nc = false) by (by apply is_type_false).
  assert (Hfr : is_type NDocumentFragment nc = false) by (by apply is_type_false).
  unfold bind at 1, getM at 1, lift. rewrite (get_node_some _ _ _ Hp).
  unfold bind at 1, getM, lift. rewrite (get_node_some _ _ _ Hc). rewrite Hal. cbn [negb].
  (* second *)
  assert (Hany : exists b, (if is_type NDocument np && is_type NElement nc then lift (fun h => any_element h (n_children np)) else ret false) h = (h, Ok b)).
  { destruct (is_type NDocument np && is_type NElement nc); [|by exists false]. unfold lift.
    destruct (inv_node h HI p np Hp) as (_ & _ & _ & [H4 _] & _).
    assert (G : forall l, (forall x, In x l -> exists s, info h x = Some s) -> exists b, any_element h l = Ok b).
    { induction l as [|x l IH]; intros Hl; [by exists false|]. cbn. destruct (Hl x) as [s Hs]; [by left|].
      apply info_inv in Hs as (nx & Hx & _). rewrite (get_node_some _ _ _ Hx). cbn. destruct (is_type NElement nx); [by exists true|].
      apply IH. intros y Hy. apply Hl. by right. }
    destruct (G (n_children np)) as [b Hb]; [|exists b; by rewrite Hb]. intros x Hx. destruct (H4 x Hx) as (_ & s & Hs & _). eauto. }
  destruct Hany as [b Hb]. unfold bind at 1. unfold lift in Hb. rewrite Hb. destruct b; [by exists h, (Err HierarchyRequest)|].
  (* ref *)
  set (K := fun pos : option nat => _ : M id).
  assert (G : forall pos, (match pos with Some k => (k < length (n_children np))%nat | None => True end) ->
     exists h' x, K pos h = (h', x) /\ returned x).
  2:{ destruct r as [y|].
      - destruct (position y (n_children np)) as [k|] eqn:Hk; [|by exists h, (Err NotFound)].
        destruct (G (Some k)) as (h' & x & H1 & H2); [apply position_lookup in Hk as [Hk _]; by eapply lookup_lt_Some|].
        exists h', x. split; [|done]. exact H1.
      - destruct (G None) as (h' & x & H1 & H2); [done|]. exists h', x. split; [|done]. exact H1. }
  intros pos Hpos. unfold K. clear K.
  (* same document *)
  assert (Hcsd : check_same_document h p c = Ok tt \/ check_same_document h p c = Err WrongDocument).
  { rewrite (document_of_eq h c nc Hc), Hcd in Hdc. rewrite (document_of_eq h p np Hp) in Hdp.
    unfold check_same_document. rewrite (get_node_some _ _ _ Hp), (get_node_some _ _ _ Hc). cbn [rbind].
    destruct (owner_some h c nc HI Hc Hd1 Hd2) as (d & Hd & _). rewrite Hd in *. specialize (Hdc d eq_refl).
    unfold upgrade. rewrite Hdc. cbn. destruct (is_type NDocument np); [destruct (bool_decide _); auto|].
    destruct (n_owner np) as [a|]; [|by right]. rewrite (Hdp a eq_refl). cbn. destruct (bool_decide _); auto. }
  unfold bind at 1, lift. destruct Hcsd as [E|E]; rewrite E; [|by exists h, (Err WrongDocument)].
  unfold bind at 1. rewrite (parent_node_eq h c nc Hc Hd3).
  set (K := fun _ : unit => _ : M id).
  assert (G : forall h1 np1 nc1, h_nodes h1 !! p = Some np1 -> h_nodes h1 !! c = Some nc1 -> (length (n_children np) <= S (length (n_children np1)))%nat ->
     exists h' x, K tt h1 = (h', x) /\ returned x).
  { intros h1 np1 nc1 Hp1 Hc1 Hlen. unfold K. rewrite bool_decide_false by done. rewrite (bind_modifyM _ _ nc1) by done.
    unfold insert_or_append. rewrite Hfr. unfold bind at 1. unfold bind at 1. unfold getM, lift, get_node. rewrite lookup_upd_ne by done. rewrite Hp1.
    destruct pos as [k|].
    - unfold vec_insert. destruct (Nat.leb_spec k (length (n_children np1))); [|lia].
      rewrite (modifyM_eq _ _ np1) by (by rewrite lookup_upd_ne). eexists; eexists; split; [reflexivity|done].
    - rewrite (modifyM_eq _ _ np1) by (by rewrite lookup_upd_ne). eexists; eexists; split; [reflexivity|done]. }
  destruct (upgrade h (n_parent nc)) as [q|] eqn:Hup.
  - apply upgrade_some in Hup as [Hq [nq Hnq]]. rewrite bind_assoc. unfold bind at 1. rewrite (remove_child_eq h q c nq HI Hnq), Hc.
    destruct (position c (n_children nq)) as [kq|] eqn:Hkq; [|by exists h, (Err NotFound)].
    assert (Hqc : q <> c).
    { destruct (child_alive h q c HI) as (? & _ & _ & ?); [|done]. rewrite (child_iff h q nq) by done.
      apply position_lookup in Hkq as [Hkq _]. by eapply elem_of_list_In, elem_of_list_lookup_2. }
    unfold bind at 1. cbn [ret]. unfold removed.
    destruct (decide (q = p)) as [->|Hqp].
    + assert (nq = np) by congruence. subst nq.
      eapply (G _ (set_children (delete kq (n_children np)) np) (set_parent None nc)); [rewrite lookup_upd_ne by done; apply lookup_upd|apply lookup_upd|].
      cbn. rewrite length_delete; [lia|]. apply position_lookup in Hkq as [Hkq _]. eauto.
    + eapply (G _ np (set_parent None nc)); [by rewrite !lookup_upd_ne by done|apply lookup_upd|lia].
  - unfold bind at 1. cbn [ret]. eapply (G h np nc); [done|done|lia].
Qed.

Lemma replace_child_inv h h' p c o x : Inv h -> replace_child p c o h = (h', x) -> returned x ->
  exists np nc, h_nodes h !! p = Some np /\ h_nodes h !! c = Some nc /\
  ((is_child_allowed (n_type np) (n_type nc) = false /\ x = Err HierarchyRequest /\ h' = h) \/
   (is_child_allowed (n_type np) (n_type nc) = true /\ ~ In o (n_children np) /\ x = Err NotFound /\ h' = h) \/
   (is_child_allowed (n_type np) (n_type nc) = true /\ In o (n_children np) /\
    exists next h1, next_sibling h o = Ok next /\ remove_child p o h = (h1, Ok o) /\
     ((x = Ok o /\ exists y, insert_before p c next h1 = (h', Ok y)) \/ (exists e, x = Err e /\ insert_before p c next h1 = (h', Err e))))).
Proof.
  intros HI H Hr. unfold replace_child in H.
  apply bind_getM in H as (np & Hp & H); [|done]. apply bind_getM in H as (nc & Hc & H); [|done].
  exists np, nc. split; [done|]. split; [done|].
  destruct (is_child_allowed (n_type np) (n_type nc)) eqn:Hal; cbn [negb] in H; [|left; by injection H as <- <-].
  right. destruct (bool_decide_reflect (o ∈ n_children np)) as [Hin|Hni].
  2:{ left. injection H as <- <-. split; [done|]. split; [by rewrite <- elem_of_list_In|done]. }
  right. split; [done|]. split; [by apply elem_of_list_In|].
  apply bind_lift in H as [(next & Hn & H)|(e & He & _)]; [| |done].
  - exists next. apply bind_inv in H as [(h1 & a & Hrm & H)|(e & Hrm & ->)]; [..|done].
    + exists h1. split; [done|].
      destruct (remove_child_inv h h1 p o _ HI Hrm Logic.I) as (np' & _ & [(_ & _ & ?)|(no & k & _ & _ & _ & _ & [= ->])]); [done|].
      split; [done|]. apply bind_inv in H as [(h2 & y & Hins & H)|(e & Hins & ->)]; [..|done].
      * left. injection H as <- <-. split; [done|]. eauto.
      * right. eauto.
    + exfalso. destruct (remove_child_inv h h' p o _ HI Hrm Logic.I) as (np' & Hp' & [(Hni & _ & _)|(no & k & _ & _ & _ & _ & ?)]); [|done].
      assert (np' = np) by congruence. subst. apply Hni. by apply elem_of_list_In.
  - exfalso. unfold next_sibling, get_node in He. destruct (h_nodes h !! o); [|done]. cbn in He.
    destruct (is_type NAttribute _); [done|]. destruct (upgrade h _) as [q|]; [|done].
    destruct (h_nodes h !! q); [|done]. cbn in He. by destruct (position o _).
Qed.

(** ** Siblings *)
Lemma lookup_position l k (c : id) : List.NoDup l -> l !! k = Some c -> position c l = Some k.
Proof.
  intros Hnd Hk. destruct (position_some c l) as [j Hj]; [by eapply elem_of_list_In, elem_of_list_lookup_2|].
  rewrite Hj. f_equal. apply position_lookup in Hj as [Hj _]. by eapply (proj1 (NoDup_lookup_iff l)).
Qed.
Lemma next_sibling_eq h p l k c : consistent_at h p l -> l !! k = Some c -> next_sibling h c = Ok (l !! S k).
Proof.
  intros ((np & Hp & <-)%child_nodes_ok & Hnd & Hpar) Hk.
  assert (Hin : In c (n_children np)) by (by eapply elem_of_list_In, elem_of_list_lookup_2).
  pose proof (Hpar c Hin) as (nc & np' & Hc & Ht & Hpp & _)%parent_node_some.
  unfold next_sibling. rewrite (get_node_some _ _ _ Hc). cbn [rbind]. apply is_type_false in Ht. rewrite Ht.
  assert (Hu : upgrade h (n_parent nc) = Some p) by (apply upgrade_some; eauto). rewrite Hu, (get_node_some _ _ _ Hp). cbn [rbind].
  by rewrite (lookup_position _ k c).
Qed.
Lemma previous_sibling_eq h p l k c : consistent_at h p l -> l !! k = Some c ->
  previous_sibling h c = Ok (match k with O => None | S j => l !! j end).
Proof.
  intros ((np & Hp & <-)%child_nodes_ok & Hnd & Hpar) Hk.
  assert (Hin : In c (n_children np)) by (by eapply elem_of_list_In, elem_of_list_lookup_2).
  pose proof (Hpar c Hin) as (nc & np' & Hc & Ht & Hpp & _)%parent_node_some.
  unfold previous_sibling. rewrite (get_node_some _ _ _ Hc). cbn [rbind]. apply is_type_false in Ht. rewrite Ht.
  assert (Hu : upgrade h (n_parent nc) = Some p) by (apply upgrade_some; eauto). rewrite Hu, (get_node_some _ _ _ Hp). cbn [rbind].
  rewrite (lookup_position _ k c) by done. by destruct k.
Qed.
Lemma enumerates_from h p l k : consistent_at h p l -> (k <= length l)%nat -> enumerates h (l !! k) (drop k l).
Proof.
  intros Hc. remember (length l - k)%nat as n eqn:E. revert k E. induction n as [|n IH]; intros k E Hk.
  - rewrite lookup_ge_None_2, drop_ge by lia. constructor.
  - destruct (lookup_lt_is_Some_2 l k) as [c Hk']; [lia|]. rewrite Hk', (drop_S l c k Hk').
    econstructor; [by eapply next_sibling_eq|]. apply IH; lia.
Qed.

(** ** Cycles *)
Lemma without_first_in c l l' x : without_first c l l' -> x <> c -> In x l -> In x l'.
Proof. intros [a b Ha] Hne. rewrite !in_app_iff. cbn. intuition congruence. Qed.
Lemma insert_keeps_edges h h' p c r x a b : Inv h -> insert_before p c r h = (h', Ok x) -> child h a b -> b <> c -> child h' a b.
Proof.
  intros HI H (na & Ha & Hin)%child_edge Hbc. destruct (insert_ok h h' p c r x HI H) as (_ & np & nc & l0 & k & np' & nc' & HS). apply child_edge.
  pose proof (is_p _ _ _ _ _ _ _ _ _ _ _ HS) as Hp. pose proof (is_c _ _ _ _ _ _ _ _ _ _ _ HS) as Hc.
  destruct (decide (a = p)) as [->|Hap].
  - assert (na = np) by congruence. subst na. exists np'. split; [by eapply is_p'|]. rewrite (is_ch _ _ _ _ _ _ _ _ _ _ _ HS). apply In_insert. right.
    assert (Hd : parent_node h c = Ok (Some p) \/ parent_node h c <> Ok (Some p)).
    { destruct (parent_node h c) as [[q|]| | |]; try (by right). destruct (decide (q = p)) as [->|]; [by left|right; congruence]. }
    destruct Hd as [Hd|Hd].
    + eapply without_first_in; [by eapply is_l0|done|done].
    + by rewrite (is_l0' _ _ _ _ _ _ _ _ _ _ _ HS Hd).
  - destruct (decide (a = c)) as [->|Hac].
    + assert (na = nc) by congruence. subst na. exists nc'. split; [by eapply is_c'|].
      destruct (is_sc _ _ _ _ _ _ _ _ _ _ _ HS) as (_ & _ & _ & -> & _). done.
    + assert (Hd : parent_node h c = Ok (Some a) \/ parent_node h c <> Ok (Some a)).
      { destruct (parent_node h c) as [[q|]| | |]; try (by right). destruct (decide (q = a)) as [->|]; [by left|right; congruence]. }
      destruct Hd as [Hd|Hd].
      * destruct (is_old _ _ _ _ _ _ _ _ _ _ _ HS a Hap Hd) as (nq & nq' & Hq & Hq' & _ & Hw). assert (na = nq) by congruence. subst nq.
        exists nq'. split; [done|]. by eapply without_first_in.
      * exists na. split; [|done]. by rewrite (is_frame _ _ _ _ _ _ _ _ _ _ _ HS a Hap Hac Hd).
Qed.
Lemma insert_ancestor_cycle h h' p c r x : Inv h -> acyclic h -> rtc (child h) c p -> insert_before p c r h = (h', Ok x) -> tc (child h') c c.
Proof.
  intros HI Hac Hcp H.
  assert (G : forall y, rtc (child h) c y -> rtc (child h') c y).
  { intros y. refine (rtc_ind_r _ c _ _ y); [constructor|]. intros u v Hu Huv IH. eapply rtc_r; [exact IH|].
    eapply insert_keeps_edges; [done|done|done|]. intros ->. apply (Hac c). by eapply tc_rtc_l; [|apply tc_once]. }
  eapply tc_rtc_l; [by apply G|]. apply tc_once.
  destruct (insert_ok h h' p c r x HI H) as (_ & np & nc & l0 & k & np' & nc' & HS). apply child_edge. exists np'. split; [by eapply is_p'|].
  rewrite (is_ch _ _ _ _ _ _ _ _ _ _ _ HS). apply In_insert. by left.
Qed.
