(** * ProofTree: two-way links and acyclicity *)
From Coq Require Import Lia.
From Verif Require Import SpecTree ProofText ProofName ProofInv ProofSteps ProofOps.

Lemma child_nodes_ok h p l : child_nodes h p = Ok l <-> exists n, h_nodes h !! p = Some n /\ n_children n = l.
Proof.
  unfold child_nodes, get_node. destruct (h_nodes h !! p) as [n|]; cbn.
  - split; [intros [= <-]; eauto|]. intros (m & [= ->] & <-). done.
  - split; [done|]. by intros (m & ? & _).
Qed.
Lemma node_type_ok h p t : node_type_of h p = Ok t <-> exists n, h_nodes h !! p = Some n /\ n_type n = t.
Proof.
  unfold node_type_of, get_node. destruct (h_nodes h !! p) as [n|]; cbn.
  - split; [intros [= <-]; eauto|]. intros (m & [= ->] & <-). done.
  - split; [done|]. by intros (m & ? & _).
Qed.
Lemma child_edge h p c : child h p c <-> exists n, h_nodes h !! p = Some n /\ In c (n_children n).
Proof.
  split.
  - intros (l & (n & Hn & <-)%child_nodes_ok & Hin). eauto.
  - intros (n & Hn & Hin). exists (n_children n). split; [|done]. apply child_nodes_ok. eauto.
Qed.
Lemma parent_node_some h c p : parent_node h c = Ok (Some p) <->
  exists nc np, h_nodes h !! c = Some nc /\ n_type nc <> NAttribute /\ n_parent nc = Some p /\ h_nodes h !! p = Some np.
Proof.
  unfold parent_node, get_node. destruct (h_nodes h !! c) as [nc|]; cbn.
  2:{ split; [done|]. by intros (? & ? & ? & _). }
  destruct (is_type NAttribute nc) eqn:Ht.
  - apply is_type_true in Ht. split; [done|]. intros (? & ? & [= ->] & ? & _). done.
  - apply is_type_false in Ht. split.
    + intros [= H]. apply upgrade_some in H as [H [np Hnp]]. eauto 6.
    + intros (nc' & np & [= ->] & _ & Hp & Hnp). f_equal. apply upgrade_some. eauto.
Qed.
Lemma child_alive h p c : Inv h -> child h p c -> exists nc, h_nodes h !! c = Some nc /\ can_be_child (n_type nc) = true /\ p <> c.
Proof.
  intros HI (n & Hn & Hin)%child_edge. destruct (inv_node h HI p n Hn) as (_ & _ & _ & [H4 _] & _).
  destruct (H4 c Hin) as (Hne & s & Hs & [Hl _]). apply info_inv in Hs as (nc & Hc & <-). exists nc. split; [done|]. split; [|congruence].
  by eapply allowed_can_be_child.
Qed.

(** ** Two-way links *)
Definition TW (h : heap) : Prop := forall p np, h_nodes h !! p = Some np -> n_type np <> NAttribute ->
  List.NoDup (n_children np) /\ forall c nc, In c (n_children np) -> h_nodes h !! c = Some nc -> n_parent nc = Some p.
Lemma TW_two_way h : Inv h -> TW h -> two_way h.
Proof.
  intros HI HT p l t (np & Hp & <-)%child_nodes_ok (np' & Hp' & <-)%node_type_ok Ht.
  rewrite Hp in Hp'. injection Hp' as <-. destruct (HT p np Hp Ht) as [Hnd Hpar]. split; [done|]. intros c. split.
  - intros Hin. destruct (child_alive h p c HI) as (nc & Hc & Hcb & _); [apply child_edge; eauto|].
    apply parent_node_some. exists nc, np. split; [done|]. split; [by intros E; rewrite E in Hcb|]. eauto.
  - intros (nc & np' & Hc & _ & Hpp & Hnp)%parent_node_some. assert (np' = np) by congruence. subst np'. by eapply inv_parent.
Qed.

Definition tame_lab (l : lab) : Prop :=
  match l with
  | LAlloc n => n_children n = [] \/ n_type n = NAttribute
  | LRemove _ t _ => t <> NAttribute
  | LUnparent _ t => t = NAttribute
  | _ => True
  end.
Lemma NoDup_lookup_iff {A} (l : list A) : List.NoDup l <-> forall i j x, l !! i = Some x -> l !! j = Some x -> i = j.
Proof. rewrite <- NoDup_ListNoDup. apply NoDup_alt. Qed.
Lemma NoDup_delete {A} k (l : list A) : List.NoDup l -> List.NoDup (delete k l).
Proof.
  rewrite !NoDup_lookup_iff. intros H i j x Hi Hj. rewrite lookup_delete_list in Hi, Hj.
  destruct (decide (i < k)%nat), (decide (j < k)%nat); pose proof (H _ _ _ Hi Hj); lia.
Qed.
Lemma NoDup_delete_not_in {A} k (l : list A) x : List.NoDup l -> l !! k = Some x -> ~ In x (delete k l).
Proof.
  rewrite NoDup_lookup_iff. intros H Hk Hin%elem_of_list_In. apply elem_of_list_lookup_1 in Hin as [j Hj].
  rewrite lookup_delete_list in Hj. destruct (decide (j < k)%nat); pose proof (H _ _ _ Hk Hj); lia.
Qed.
Lemma NoDup_insert {A} k (l : list A) x : List.NoDup l -> ~ In x l -> List.NoDup (take k l ++ x :: drop k l).
Proof.
  intros H Hni. rewrite <- NoDup_ListNoDup in *. rewrite <- Permutation_middle. rewrite take_drop. constructor; [|done].
  by rewrite elem_of_list_In.
Qed.

Lemma TW_removed h p c np nc k : Inv h -> TW h -> h_nodes h !! p = Some np -> h_nodes h !! c = Some nc ->
  position c (n_children np) = Some k -> n_parent nc = Some p ->
  TW (upd c (set_parent None nc) (upd p (set_children (delete k (n_children np)) np) h)).
Proof.
  intros HI HT Hp Hc Hk Hpar q nq Hq Htq. apply position_lookup in Hk as [Hk _].
  assert (Hnc : n_type nc <> NAttribute).
  { destruct (inv_node h HI c nc Hc) as (_ & _ & H3 & _). destruct (H3 p Hpar) as (_ & H & _). by intros E; rewrite E in H. }
  assert (Hcp : c <> p).
  { destruct (child_alive h p c HI) as (? & _ & _ & ?); [|congruence]. apply child_edge. exists np. split; [done|].
    by eapply elem_of_list_In, elem_of_list_lookup_2. }
  (* the list of [q], before and after *)
  assert (G : exists nq0, h_nodes h !! q = Some nq0 /\ n_type nq0 = n_type nq /\
     (n_children nq = n_children nq0 /\ (q <> p) \/ q = p /\ n_children nq = delete k (n_children np) /\ nq0 = np)).
  { upd_cases Hq; [exists nc; cbn; split; [done|]; split; [done|]; by left|].
    upd_cases Hq; [exists np; cbn; split; [done|]; split; [done|]; by right|]. exists nq. split; [done|]. split; [done|]. by left. }
  destruct G as (nq0 & Hq0 & Ht0 & Hl). rewrite <- Ht0 in Htq. destruct (HT q nq0 Hq0 Htq) as [Hnd Hpa].
  assert (Hnoc : ~ In c (n_children nq)).
  { destruct Hl as [[-> Hqp]|(-> & -> & ->)].
    - intros Hin. specialize (Hpa c nc Hin Hc). congruence.
    - by eapply NoDup_delete_not_in. }
  split.
  - destruct Hl as [[-> _]|(_ & -> & ->)]; [done|]. by apply NoDup_delete.
  - intros x nx Hin Hx. upd_cases Hx; [done|]. 
    assert (Hin0 : In x (n_children nq0)) by (destruct Hl as [[<- _]|(_ & E & ->)]; [done|rewrite E in Hin; by eapply In_delete]).
    upd_cases Hx; [cbn; by apply (Hpa p np)|by apply (Hpa x nx)].
Qed.
Lemma prim_TW l h h' : Inv h -> TW h -> tame_lab l -> prim l h h' -> TW h'.
Proof.
  intros HI HT Hl Hp. destruct Hp; cbn in Hl.
  - (* alloc *) intros q nq Hq Ht. unfold allocd in *. cbn in *. apply lookup_insert_Some in Hq as [[<- <-]|[Hne Hq]].
    + destruct Hl as [->|]; [|done]. split; [constructor|done].
    + destruct (HT q nq Hq Ht) as [Hnd Hpa]. split; [done|]. intros c nc Hin Hc. apply lookup_insert_Some in Hc as [[<- <-]|[_ Hc]]; [|eauto].
      destruct (child_alive h q (h_next h) HI) as (nc & Hc & _); [apply child_edge; eauto|].
      pose proof (inv_lt h HI _ _ Hc). lia.
  - (* value *) intros q nq Hq Ht.
    assert (G : exists nq0, h_nodes h !! q = Some nq0 /\ n_type nq0 = n_type nq /\ n_children nq = n_children nq0) by (upd_cases Hq; eauto).
    destruct G as (nq0 & Hq0 & Ht0 & ->). rewrite <- Ht0 in Ht. destruct (HT q nq0 Hq0 Ht) as [Hnd Hpa]. split; [done|].
    intros c nc Hin Hc. upd_cases Hc; [cbn; by apply (Hpa i n)|eauto].
  - (* attach *)
    assert (Hno : forall q nq, h_nodes h !! q = Some nq -> n_type nq <> NAttribute -> ~ In c (n_children nq)).
    { intros q nq Hq Ht Hin. destruct (HT q nq Hq Ht) as [_ Hpa]. specialize (Hpa c nc Hin H0).
      apply upgrade_none in H6 as [?|(j & Hj & Hd)]; congruence. }
    intros q nq Hq Ht. upd_cases Hq.
    + cbn in Ht. destruct (HT p np H Ht) as [Hnd Hpa]. cbn [n_children set_children]. split; [by apply NoDup_insert; [|eapply Hno]|].
      intros x nx Hin Hx. apply In_insert in Hin as [->|Hin].
      * unfold upd in Hx. cbn in Hx. rewrite lookup_insert_ne, lookup_insert in Hx by done. by injection Hx as <-.
      * upd_cases Hx; [cbn; by apply (Hpa p np)|]. upd_cases Hx; [by destruct (Hno p np H Ht)|by apply (Hpa x nx)].
    + assert (G : exists nq0, h_nodes h !! q = Some nq0 /\ n_type nq0 = n_type nq /\ n_children nq = n_children nq0) by (upd_cases Hq; eauto).
      destruct G as (nq0 & Hq0 & Ht0 & Hch). rewrite <- Ht0 in Ht. destruct (HT q nq0 Hq0 Ht) as [Hnd Hpa]. rewrite Hch. split; [done|].
      intros x nx Hin Hx. upd_cases Hx; [cbn; by apply (Hpa p np)|]. upd_cases Hx; [by destruct (Hno q nq0 Hq0 Ht)|by apply (Hpa x nx)].
  - (* remove *) apply TW_removed; try done. destruct (HT p np H Hl) as [_ Hpa]. apply (Hpa c nc); [|done].
    apply position_lookup in H1 as [H1 _]. by eapply elem_of_list_In, elem_of_list_lookup_2.
  - (* detach *) by apply TW_removed.
  - (* clear *) intros q nq Hq Ht. upd_cases Hq; [done|]. destruct (HT q nq Hq Ht) as [Hnd Hpa]. split; [done|].
    intros c nc Hin Hc. upd_cases Hc; [cbn; by apply (Hpa i n)|eauto].
  - (* ext *) intros q nq Hq Ht.
    assert (G : exists nq0, h_nodes h !! q = Some nq0 /\ n_type nq0 = n_type nq /\ n_children nq = n_children nq0) by (upd_cases Hq; eauto).
    destruct G as (nq0 & Hq0 & Ht0 & ->). rewrite <- Ht0 in Ht. destruct (HT q nq0 Hq0 Ht) as [Hnd Hpa]. split; [done|].
    intros c nc Hin Hc. upd_cases Hc; [cbn; by apply (Hpa i n)|eauto].
  - (* unparent *) intros q nq Hq Ht.
    assert (G : exists nq0, h_nodes h !! q = Some nq0 /\ n_type nq0 = n_type nq /\ n_children nq = n_children nq0) by (upd_cases Hq; eauto).
    destruct G as (nq0 & Hq0 & Ht0 & ->). rewrite <- Ht0 in Ht. destruct (HT q nq0 Hq0 Ht) as [Hnd Hpa]. split; [done|].
    intros c nc Hin Hc. upd_cases Hc; [|eauto]. exfalso.
    destruct (child_alive h q i HI) as (nc & Hc & Hcb & _); [apply child_edge; eauto|]. assert (nc = n) by congruence. subst nc. by rewrite Hl in Hcb.
  - (* drop *) intros q nq [_ Hq]%lookup_dropped Ht. destruct (HT q nq Hq Ht) as [Hnd Hpa]. split; [done|].
    intros c nc Hin [_ Hc]%lookup_dropped. eauto.
Qed.

Lemma guided_reachable G h : guided G h -> reachable h.
Proof. induction 1 as [|h o h' _ IH _ Hs]; [constructor|by eapply reach_step]. Qed.
Lemma isteps_TW (L : lab -> Prop) h h' : (forall l, L l -> tame_lab l) -> isteps L h h' -> Inv h -> TW h -> TW h'.
Proof.
  intros HL H. induction H as [|h1 h2 h3 (l & Hl & Hp) _ IH]; [done|]. intros HI HT. apply IH; [by eapply prim_inv|].
  eapply prim_TW; eauto.
Qed.
Lemma tame_oplab h o l : tame h o -> oplab h o l -> tame_lab l.
Proof.
  intros Ht. destruct l as [n|i|p c leaf|p t c|p c|i|i x x'|i t|l]; cbn; try done.
  - intros [[?|[?|[i ->]]] _]; [by left|by right|]. done.
  - intros [Hr (np & Hp & <-)] E. 
    assert (Hn : node_type_of h p = Ok NAttribute) by (apply node_type_ok; eauto).
    destruct o; try done; cbn in Hr, Ht; intuition congruence.
  - intros [?|(e & -> & n & Hn & <-)]; [done|]. cbn in Ht. apply node_type_ok in Ht as (m & Hm & Ht). congruence.
Qed.
Lemma guided_tame_TW h : guided tame h -> TW h.
Proof.
  induction 1 as [|h o h' Hg IH Ht Hs]; [intros p np; cbn; by rewrite lookup_empty|].
  assert (HI : Inv h) by (by apply reachable_inv, (guided_reachable tame)).
  eapply isteps_TW; [|by apply step_isteps|done|done]. intros l. by apply tame_oplab.
Qed.

(** ** Acyclicity *)
Section rel.
  Context {A : Type}.
  Implicit Types E : A -> A -> Prop.
  Lemma tc_first E x y : tc E x y -> exists z, E x z /\ rtc E z y.
  Proof. intros H. destruct H as [x y H|x y z H H2]; [exists y; split; [done|constructor]|exists y; split; [done|]]. by apply tc_rtc. Qed.
  Lemma tc_last E x y : tc E x y -> exists z, rtc E x z /\ E z y.
  Proof.
    induction 1 as [x y H|x y z H _ (w & H1 & H2)]; [exists x; split; [constructor|done]|]. exists w. split; [by eapply rtc_l|done].
  Qed.
  Lemma tc_sub E E' x y : (forall a b, E' a b -> E a b) -> tc E' x y -> tc E x y.
  Proof. intros H. induction 1 as [x y H1|x y z H1 _ IH]; [by apply tc_once, H|by eapply tc_l; [apply H|]]. Qed.
  Lemma rtc_sub E E' x y : (forall a b, E' a b -> E a b) -> rtc E' x y -> rtc E x y.
  Proof. intros H. induction 1 as [x|x y z H1 _ IH]; [constructor|by eapply rtc_l; [apply H|]]. Qed.
  (* a new edge *)
  Lemma rtc_add E E' p c x y : (forall a b, E' a b -> E a b \/ a = p /\ b = c) -> rtc E' x y ->
    rtc E x y \/ rtc E x p /\ rtc E c y.
  Proof.
    intros H. induction 1 as [x|x y z H1 _ IH]; [left; constructor|].
    destruct (H _ _ H1) as [H2|[-> ->]].
    - destruct IH as [IH|[IH1 IH2]]; [left; by eapply rtc_l|right; split; [by eapply rtc_l|done]].
    - destruct IH as [IH|[IH1 IH2]]; right; (split; [constructor|done]).
  Qed.
  Lemma acyclic_add E E' p c : (forall a b, E' a b -> E a b \/ a = p /\ b = c) -> ~ rtc E c p ->
    (forall x, ~ tc E x x) -> (forall x, ~ tc E' x x) /\ ~ rtc E' c p.
  Proof.
    intros H Hcp Hac. split.
    - intros x (y & Hxy & Hyx)%tc_first. destruct (H _ _ Hxy) as [Hxy'|[-> ->]].
      + destruct (rtc_add E E' p c y x H Hyx) as [Hr|[H1 H2]]; [eapply Hac, tc_rtc_r; [by apply tc_once|done]|].
        apply Hcp. eapply rtc_transitive; [exact H2|]. by eapply rtc_l.
      + destruct (rtc_add E E' p c c p H Hyx) as [Hr|[H1 _]]; done.
    - intros Hr. destruct (rtc_add E E' p c c p H Hr) as [?|[? _]]; done.
  Qed.
  (* a new node *)
  Lemma acyclic_new E E' f : (forall a b, E' a b -> E a b \/ a = f) -> (forall a b, E' a b -> b <> f) ->
    (forall x, ~ tc E x x) -> (forall x, ~ tc E' x x).
  Proof.
    intros H Hf Hac x Hx. assert (Hxf : x <> f) by (destruct (tc_last _ _ _ Hx) as (w & _ & Hw); by eapply Hf).
    assert (G : forall u v, tc E' u v -> u <> f -> tc E u v).
    { intros u v. induction 1 as [u v H1|u v w H1 _ IH]; intros Hu; (destruct (H _ _ H1) as [H2|]; [|done]).
      - by apply tc_once.
      - eapply tc_l; [done|]. apply IH. by eapply Hf. }
    by apply (Hac x), G.
  Qed.
End rel.

Definition AC (o : op) (h : heap) : Prop :=
  acyclic h /\ forall p c, inserts o = Some (p, c) -> ~ rtc (child h) c p.
Lemma AC_sub o h h' : (forall a b, child h' a b -> child h a b) -> AC o h -> AC o h'.
Proof.
  intros H [Ha Hi]. split; [intros x Hx; by eapply Ha, tc_sub|]. intros p c Ho Hr. eapply Hi; [done|]. by eapply rtc_sub.
Qed.
Ltac edge_sub := 
  let a := fresh "a" in let b := fresh "b" in let n := fresh "n" in let Hn := fresh "Hn" in let Hin := fresh "Hin" in
  intros a b (n & Hn & Hin)%child_edge; apply child_edge; repeat (upd_cases Hn; [cbn in Hin; try done; eauto|]); eauto.
Lemma prim_AC h0 o l h h' : Inv h -> oplab h0 o l -> prim l h h' -> AC o h -> AC o h'.
Proof.
  intros HI Hl Hp HA. destruct Hp; cbn in Hl.
  - destruct Hl as [_ Hi]. destruct HA as [Ha _]. split; [|by rewrite Hi].
    refine (acyclic_new (child h) _ (h_next h) _ _ Ha).
    + intros a b (m & Hm & Hin)%child_edge. unfold allocd in Hm. cbn in Hm. apply lookup_insert_Some in Hm as [[<- _]|[_ Hm]]; [by right|].
      left. apply child_edge. eauto.
    + intros a b (m & Hm & Hin)%child_edge ->. unfold allocd in Hm. cbn in Hm.
      assert (G : exists s, info h (h_next h) = Some s).
      { apply lookup_insert_Some in Hm as [[_ <-]|[_ Hm]].
        - destruct H as (_ & _ & _ & [H4 _] & _). destruct (H4 _ Hin) as (_ & s & Hs & _). eauto.
        - destruct (inv_node h HI a m Hm) as (_ & _ & _ & [H4 _] & _). destruct (H4 _ Hin) as (_ & s & Hs & _). eauto. }
      destruct G as (s & (n' & Hn' & _)%info_inv). pose proof (inv_lt h HI _ _ Hn'). lia.
  - apply (AC_sub o h); [edge_sub|done].
  - (* attach *)
    assert (He : forall a b, child (upd p (set_children (take k (n_children np) ++ c :: drop k (n_children np)) np)
                   (upd c (set_parent (Some p) nc) h)) a b -> child h a b \/ a = p /\ b = c).
    { intros a b (m & Hm & Hin)%child_edge. upd_cases Hm.
      - cbn in Hin. apply In_insert in Hin as [->|Hin]; [by right|]. left. apply child_edge. eauto.
      - left. apply child_edge. upd_cases Hm; eauto. }
    destruct (inserts o) as [[p' c']|] eqn:Hi.
    + destruct Hl as [-> ->]. destruct HA as [Ha Hn]. specialize (Hn p c Hi).
      destruct (acyclic_add (child h) _ p c He Hn Ha) as [G1 G2]. split; [done|]. intros p' c' Hi'. rewrite Hi in Hi'. by injection Hi' as <- <-.
    + destruct HA as [Ha _]. split; [|by rewrite Hi]. refine (proj1 (acyclic_add (child h) _ p c He _ Ha)).
      intros Hr. inversion Hr as [|? y ? Hy]; subst; [done|]. apply child_edge in Hy as (m & Hm & Hin).
      assert (m = nc) by congruence. subst m. by destruct (n_children nc).
  - apply (AC_sub o h); [|done]. intros a b (m & Hm & Hin)%child_edge. apply child_edge.
    upd_cases Hm; [eauto|]. upd_cases Hm; [|eauto]. cbn in Hin. apply In_delete in Hin. eauto.
  - apply (AC_sub o h); [|done]. intros a b (m & Hm & Hin)%child_edge. apply child_edge.
    upd_cases Hm; [eauto|]. upd_cases Hm; [|eauto]. cbn in Hin. apply In_delete in Hin. eauto.
  - apply (AC_sub o h); [edge_sub|done].
  - apply (AC_sub o h); [edge_sub|done].
  - apply (AC_sub o h); [edge_sub|done].
  - apply (AC_sub o h); [|done]. intros a b (m & Hm & Hin)%child_edge. apply child_edge. apply lookup_dropped in Hm as [_ Hm]. eauto.
Qed.
Lemma isteps_AC h0 o h h' : isteps (oplab h0 o) h h' -> Inv h -> AC o h -> AC o h'.
Proof.
  intros H. induction H as [|h1 h2 h3 (l & Hl & Hp) _ IH]; [done|]. intros HI HA. apply IH; [by eapply prim_inv|]. by eapply prim_AC.
Qed.
Lemma guided_acyclic h : guided no_ancestor_insert h -> acyclic h.
Proof.
  induction 1 as [|h o h' Hg IH Hn Hs].
  - intros x (y & (n & Hn & _)%child_edge & _)%tc_first. unfold empty_heap in Hn; cbn in Hn; by rewrite lookup_empty in Hn.
  - assert (HI : Inv h) by (by apply reachable_inv, (guided_reachable no_ancestor_insert)).
    apply (isteps_AC h o h h'); [by apply step_isteps|done|]. split; [done|].
    intros p c Ho Hr. destruct o; try done; cbn in Ho, Hn; injection Ho as -> ->; by apply Hn.
Qed.

(** ** Histories *)
Lemma later_reachable h h' : reachable h -> later h h' -> reachable h'.
Proof. intros Hr H. induction H as [|x y z [o Ho] _ IH]; [done|]. apply IH. by eapply reach_step. Qed.
Lemma later_isteps h h' : reachable h -> later h h' -> isteps (fun _ => True) h h'.
Proof.
  intros Hr H. induction H as [|x y z [o Ho] _ IH]; [apply isteps_nil|].
  eapply isteps_app; [|by apply IH; eapply reach_step]. eapply isteps_weaken; [|eapply step_isteps; [by apply reachable_inv|done]]. done.
Qed.
Lemma permitted_allowed tp tc : is_child_allowed tp tc = true <-> In tc (permitted_children tp).
Proof. destruct tp, tc; cbn; split; try done; intuition congruence. Qed.

(** ** Children of a given document *)
Definition DO (d : id) (h : heap) : Prop := forall nd c nc, h_nodes h !! d = Some nd -> n_type nd = NDocument ->
  In c (n_children nd) -> h_nodes h !! c = Some nc -> n_owner nc = Some d.
Lemma prim_DO d l h h' : Inv h -> prim l h h' -> (forall n, l = LAlloc n -> h_next h = d -> n_children n = [] \/ n_type n <> NDocument) ->
  DO d h -> DO d h'.
Proof.
  intros HI Hp Hl HD.
  assert (Hst : forall h1 h2, (forall j, info h2 j = info h1 j) ->
     (forall nd2, h_nodes h2 !! d = Some nd2 -> exists nd1, h_nodes h1 !! d = Some nd1 /\ forall c, In c (n_children nd2) -> In c (n_children nd1)) ->
     DO d h1 -> DO d h2).
  { intros h1 h2 Hi Hc HD1 nd c nc Hd Ht Hin Hnc. destruct (Hc nd Hd) as (nd1 & Hd1 & Hsub).
    pose proof (Hi d) as Hid. rewrite (info_some _ _ _ Hd), (info_some _ _ _ Hd1) in Hid. injection Hid as Htd _ _.
    pose proof (Hi c) as Hic. rewrite (info_some _ _ _ Hnc) in Hic. symmetry in Hic. apply info_inv in Hic as (nc1 & Hc1 & Hsc).
    injection Hsc as _ _ <-. eapply HD1; [exact Hd1|congruence|by apply Hsub|done]. }
  destruct Hp.
  - intros nd c nc Hd Ht Hin Hc. unfold allocd in Hd, Hc. cbn in Hd, Hc.
    apply lookup_insert_Some in Hd as [[E <-]|[Hne Hd]].
    + destruct (Hl n eq_refl E) as [E2|]; [|done]. by rewrite E2 in Hin.
    + apply lookup_insert_Some in Hc as [[E _]|[_ Hc]]; [|by eapply HD].
      destruct (child_alive h d c HI) as (nc' & Hc & _); [apply child_edge; eauto|]. pose proof (inv_lt h HI _ _ Hc). lia.
  - apply (Hst h); [by eapply info_upd| |done]. intros nd Hd. upd_cases Hd; eauto.
  - intros nd x nx Hd Ht Hin Hx.
    assert (Hx0 : exists nx0, h_nodes h !! x = Some nx0 /\ n_owner nx = n_owner nx0) by (upd_cases Hx; [eauto|]; upd_cases Hx; eauto).
    destruct Hx0 as (nx0 & Hx0 & ->). upd_cases Hd.
    + cbn in Hin, Ht. apply In_insert in Hin as [->|Hin]; [|by eapply HD]. assert (nx0 = nc) by congruence. subst. by apply H4.
    + assert (G : exists nd0, h_nodes h !! d = Some nd0 /\ n_type nd0 = n_type nd /\ n_children nd0 = n_children nd) by (upd_cases Hd; eauto).
      destruct G as (nd0 & Hd0 & Ht0 & Hc0). eapply HD; [exact Hd0|congruence|by rewrite Hc0|done].
  - apply (Hst h); [| |done].
    + assert (p <> c).
      { destruct (child_alive h p c HI) as (? & _ & _ & ?); [|congruence]. apply child_edge. exists np. split; [done|].
        apply position_lookup in H1 as [H1 _]. by eapply elem_of_list_In, elem_of_list_lookup_2. }
      by apply removed_info.
    + intros nd Hd. upd_cases Hd; [eauto|]. upd_cases Hd; [|eauto]. exists np. split; [done|]. intros x. apply In_delete.
  - apply (Hst h); [| |done].
    + assert (p <> c).
      { destruct (child_alive h p c HI) as (? & _ & _ & ?); [|congruence]. apply child_edge. exists np. split; [done|].
        apply position_lookup in H1 as [H1 _]. by eapply elem_of_list_In, elem_of_list_lookup_2. }
      by apply removed_info.
    + intros nd Hd. upd_cases Hd; [eauto|]. upd_cases Hd; [|eauto]. exists np. split; [done|]. intros x. apply In_delete.
  - apply (Hst h); [by eapply info_upd| |done]. intros nd Hd. upd_cases Hd; [|eauto]. exists n. by split.
  - apply (Hst h); [by eapply info_upd| |done]. intros nd Hd. upd_cases Hd; eauto.
  - apply (Hst h); [by eapply info_upd| |done]. intros nd Hd. upd_cases Hd; eauto.
  - intros nd c nc [_ Hd]%lookup_dropped Ht Hin [_ Hc]%lookup_dropped. by eapply HD.
Qed.
Lemma isteps_DO d (L : lab -> Prop) h h' : Inv h -> isteps L h h' ->
  (forall n, L (LAlloc n) -> n_children n = [] \/ n_type n <> NDocument) \/ (d < h_next h)%nat ->
  DO d h -> DO d h'.
Proof.
  intros HI H. induction H as [|h1 h2 h3 (l & Hl & Hp) _ IH]; [done|]. intros HL HD. apply IH; [by eapply prim_inv| |].
  - destruct HL as [HL|HL]; [by left|right]. apply prim_next in Hp. lia.
  - apply (prim_DO d l h1); [done|done| |done]. intros n -> E. destruct HL as [HL|HL]; [by apply HL|lia].
Qed.
Lemma document_children h o h' d nd h'' : reachable h -> step h o h' -> (forall i, o <> OClone true i) ->
  h_nodes h !! d = None -> h_nodes h' !! d = Some nd -> later h' h'' -> DO d h''.
Proof.
  intros Hr Hs Ho Hd Hd' Hla. assert (Hr' : reachable h') by (by eapply reach_step).
  assert (HD : DO d h').
  { apply (isteps_DO d (oplab h o) h); [by apply reachable_inv|apply step_isteps; [by apply reachable_inv|done]| |].
    - left. intros n [[E|[E|[i E]]] _]; [by left|right; congruence|by destruct (Ho i)].
    - intros x c nc Hx. congruence. }
  apply (isteps_DO d (fun _ => True) h'); [by apply reachable_inv|by apply later_isteps| |done].
  right. eapply inv_lt; [by apply reachable_inv|done].
Qed.
Lemma run_later ops a b : run env0 ops a = Some b -> later a b.
Proof.
  revert a. induction ops as [|o ops IH]; intros a H; cbn in H; [injection H as <-; constructor|].
  destruct (typed_op a o) eqn:Ht; [|done]. destruct (exec env0 o a) as [h1 r] eqn:He.
  assert (G : run env0 ops h1 = Some b /\ returned r) by (by destruct r). destruct G as [H1 Hr].
  apply rtc_l with h1; [|by apply IH]. exists o. split; [done|]. exists env0, r. split; [exact wf_env0|]. split; [done|]. by destruct r.
Qed.
