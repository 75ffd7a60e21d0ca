(** * ProofReader: what holds of the parser's result whatever the events *)
From Coq Require Import Lia.
From Verif Require Import SpecParse SpecTree SpecNs ProofText ProofName ProofSteps ProofInv ProofElem ProofInsert ProofOps ProofTree ProofWalk PropName PropTree.

#[local] Opaque attr_value.

(** ** The part of the heap that is new *)
Record shape := mkShape { sh_type : node_type; sh_owner : option id; sh_parent : option id; sh_children : list id }.
Definition shape_of (n : node) : shape := mkShape (n_type n) (n_owner n) (n_parent n) (n_children n).
Definition shapes (h : heap) (i : id) : option shape := shape_of <$> h_nodes h !! i.
(** Links among nodes from [lo] on, all of the document [d]. *)
Definition shape_fine (lo : nat) (d : id) (S : id -> option shape) (i : id) (s : shape) : Prop :=
  (i = d /\ sh_type s = NDocument /\ sh_owner s = None /\ sh_parent s = None \/ i <> d /\ sh_type s <> NDocument /\ sh_owner s = Some d) /\
  (forall c, In c (sh_children s) -> (lo <= c)%nat) /\
  (sh_type s <> NAttribute -> List.NoDup (sh_children s) /\ forall c, In c (sh_children s) -> (i < c)%nat /\ exists sc, S c = Some sc /\ sh_parent sc = Some i) /\
  (forall p, sh_parent s = Some p -> (lo <= p)%nat /\ exists sp, S p = Some sp /\ sh_type sp <> NAttribute /\ In i (sh_children sp)).
Definition ext_fine (lo : nat) (x : extension) : Prop :=
  match x with
  | XElement al nss => nss = [] /\ forall k a, In (k, a) al -> (lo <= a)%nat
  | XAttribute o => forall e, o = Some e -> (lo <= e)%nat
  | XDocument _ t m _ => t = None /\ forall w e, In (w, e) m -> (lo <= e)%nat
  | XDocumentType _ _ _ _ _ => False
  | _ => True
  end.
Record part (lo : nat) (d : id) (h0 h : heap) : Prop := {
  pa_d : (lo <= d)%nat;
  pa_next : (lo <= h_next h)%nat;
  pa_old : forall i, (i < lo)%nat -> h_nodes h !! i = h_nodes h0 !! i;
  pa_none : forall i, (h_next h <= i)%nat -> h_nodes h !! i = None;
  pa_shape : forall i s, (lo <= i)%nat -> shapes h i = Some s -> shape_fine lo d (shapes h) i s;
  pa_node : forall i n, (lo <= i)%nat -> h_nodes h !! i = Some n -> nm_ns (n_name n) = None /\ ext_fine lo (n_ext n) }.
Definition stays (h h' : heap) : Prop := forall i s, shapes h i = Some s -> exists s', shapes h' i = Some s' /\ sh_type s' = sh_type s.
Lemma stays_refl h : stays h h. Proof. intros i s H. eauto. Qed.
Lemma stays_trans h1 h2 h3 : stays h1 h2 -> stays h2 h3 -> stays h1 h3.
Proof. intros H1 H2 i s H. destruct (H1 i s H) as (s1 & Hs1 & Ht1). destruct (H2 i s1 Hs1) as (s2 & Hs2 & Ht2). exists s2. split; [done|congruence]. Qed.
Lemma shapes_some h i n : h_nodes h !! i = Some n -> shapes h i = Some (shape_of n).
Proof. intros H. unfold shapes. by rewrite H. Qed.
Lemma shapes_inv h i s : shapes h i = Some s -> exists n, h_nodes h !! i = Some n /\ s = shape_of n.
Proof. unfold shapes. intros (n & -> & ->)%fmap_Some. eauto. Qed.
Lemma shapes_upd h i n n' : h_nodes h !! i = Some n -> shape_of n' = shape_of n -> forall j, shapes (upd i n' h) j = shapes h j.
Proof.
  intros Hn Hs j. unfold shapes. destruct (decide (j = i)) as [->|Hne]; [rewrite lookup_upd, Hn; cbn; by rewrite Hs|by rewrite lookup_upd_ne].
Qed.

Section part.
  Context (lo : nat) (d : id) (h0 : heap).
  Notation P := (part lo d h0).
  (** *** Changes *)
  Lemma part_ext h i n x : P h -> (lo <= i)%nat -> h_nodes h !! i = Some n -> ext_fine lo x -> P (upd i (set_ext x n) h).
  Proof.
    intros HP Hi Hn Hx. pose proof (shapes_upd h i n (set_ext x n) Hn eq_refl) as HS. destruct HP as [H1 H2 H3 H4 H5 H6]. split; try done.
    - intros j Hj. rewrite lookup_upd_ne by lia. by apply H3.
    - intros j Hj. pose proof (H4 j Hj). rewrite lookup_upd_ne by congruence. done.
    - intros j s Hj. rewrite HS. intros Hs. destruct (H5 j s Hj Hs) as (A & B & C & D). split; [done|]. split; [done|]. split.
      + intros Ht. destruct (C Ht) as [C1 C2]. split; [done|]. intros c Hc. destruct (C2 c Hc) as (? & sc & ? & ?). split; [done|]. exists sc. by rewrite HS.
      + intros p Hp. destruct (D p Hp) as (? & sp & ? & ?). split; [done|]. exists sp. by rewrite HS.
    - intros j m Hj. destruct (decide (j = i)) as [->|Hne]; [rewrite lookup_upd|rewrite lookup_upd_ne by done; by apply H6]. intros [= <-]. destruct (H6 i n Hj Hn). by split.
  Qed.
  Lemma part_alloc h n : P h -> n_parent n = None -> n_owner n = Some d -> n_type n <> NDocument -> h_next h <> d ->
    (n_children n = [] \/ n_type n = NAttribute /\ forall c, In c (n_children n) -> (lo <= c)%nat) -> nm_ns (n_name n) = None -> ext_fine lo (n_ext n) -> P (allocd n h).
  Proof.
    intros [H1 H2 H3 H4 H5 H6] Hp Ho Ht Hd Hc Hnm Hx.
    assert (HS : forall j s, shapes h j = Some s -> shapes (allocd n h) j = Some s).
    { intros j s (m & Hm & ->)%shapes_inv. apply shapes_some. cbn. rewrite lookup_insert_ne; [done|]. intros Hj. rewrite <- Hj, H4 in Hm by done. done. }
    split; try done.
    - cbn. lia.
    - intros j Hj. cbn. rewrite lookup_insert_ne by lia. by apply H3.
    - cbn. intros j Hj. rewrite lookup_insert_ne by lia. apply H4. lia.
    - intros j s Hj (m & Hm & ->)%shapes_inv. cbn in Hm. destruct (decide (j = h_next h)) as [->|Hne].
      + rewrite lookup_insert in Hm. injection Hm as <-. split; [by right|]. cbn. split; [destruct Hc as [-> |[_ Hc]]; [done|exact Hc]|]. split; [|by rewrite Hp].
        intros Hna. destruct Hc as [-> |[Hc _]]; [|done]. split; [constructor|done].
      + rewrite lookup_insert_ne in Hm by done. destruct (H5 j _ Hj (shapes_some _ _ _ Hm)) as (A & B & C & D). split; [done|]. split; [done|]. split.
        * intros Hna. destruct (C Hna) as [C1 C2]. split; [done|]. intros c Hin. destruct (C2 c Hin) as (? & sc & ? & ?). eauto.
        * intros p Hpp. destruct (D p Hpp) as (? & sp & ? & ?). eauto.
    - cbn. intros j m Hj. destruct (decide (j = h_next h)) as [->|Hne]; [rewrite lookup_insert; intros [= <-]; done|rewrite lookup_insert_ne by done; by apply H6].
  Qed.
  Definition adopted (p c : id) (np nc : node) (h : heap) : heap :=
    upd p (set_children (n_children np ++ [c]) np) (upd c (set_owner (Some d) (set_parent (Some p) nc)) h).
  Lemma part_adopt h p c np nc : P h -> h_nodes h !! p = Some np -> h_nodes h !! c = Some nc -> (lo <= p < c)%nat -> n_type np <> NAttribute ->
    n_parent nc = None -> c <> d -> P (adopted p c np nc h).
  Proof.
    intros HP Hp Hc Hlt Hna Hpar Hcd. pose proof HP as [H1 H2 H3 H4 H5 H6].
    assert (Hno : ~ In c (n_children np)).
    { intros Hin. destruct (H5 p _ ltac:(lia) (shapes_some _ _ _ Hp)) as (_ & _ & C & _). destruct (C Hna) as [_ C2]. destruct (C2 c Hin) as (_ & sc & Hsc & Hpc).
      rewrite (shapes_some _ _ _ Hc) in Hsc. injection Hsc as <-. cbn in Hpc. congruence. }
    assert (HS : forall j s, shapes h j = Some s -> exists s', shapes (adopted p c np nc h) j = Some s' /\ sh_type s' = sh_type s /\
      (j <> c -> sh_parent s' = sh_parent s) /\ (forall x, In x (sh_children s) -> In x (sh_children s'))).
    { intros j s (m & Hm & ->)%shapes_inv. unfold adopted. destruct (decide (j = p)) as [->|Hjp]; [|destruct (decide (j = c)) as [->|Hjc]].
      - eexists. split; [apply shapes_some, lookup_upd|]. rewrite Hp in Hm. injection Hm as <-. cbn. split; [done|]. split; [done|]. intros x Hx. apply in_or_app. by left.
      - eexists. split; [apply shapes_some; rewrite lookup_upd_ne by done; apply lookup_upd|]. rewrite Hc in Hm. injection Hm as <-. cbn. done.
      - eexists. split; [apply shapes_some; rewrite !lookup_upd_ne by done; exact Hm|]. done. }
    assert (HSc : exists sc, shapes (adopted p c np nc h) c = Some sc /\ sh_parent sc = Some p).
    { eexists. split; [apply shapes_some; unfold adopted; rewrite lookup_upd_ne by lia; apply lookup_upd|]. done. }
    assert (HSp : exists sp, shapes (adopted p c np nc h) p = Some sp /\ sh_type sp <> NAttribute /\ In c (sh_children sp)).
    { eexists. split; [apply shapes_some; unfold adopted; apply lookup_upd|]. cbn. split; [done|]. apply in_or_app. right. by left. }
    split; try done.
    - intros j Hj. unfold adopted. rewrite !lookup_upd_ne by lia. by apply H3.
    - intros j Hj. pose proof (H4 j Hj). unfold adopted. rewrite lookup_upd_ne by congruence. rewrite lookup_upd_ne by congruence. done.
    - intros j s Hj (m & Hm & ->)%shapes_inv. unfold adopted in Hm. destruct (decide (j = p)) as [->|Hjp]; [|destruct (decide (j = c)) as [->|Hjc]].
      + rewrite lookup_upd in Hm. injection Hm as <-. destruct (H5 p _ Hj (shapes_some _ _ _ Hp)) as (A & B & C & D). split; [done|]. cbn. split.
        { intros x [Hx|[<-|[]]]%in_app_or; [by apply B|lia]. }
        split; [|intros q Hq; destruct (D q Hq) as (? & sp & Hsp & ? & Hin); destruct (HS _ _ Hsp) as (s' & ? & Ht & _ & Hch); split; [done|]; exists s'; split; [done|]; split; [congruence|by apply Hch]].
        intros _. destruct (C Hna) as [C1 C2]. split.
        { apply NoDup_ListNoDup. apply NoDup_app. split; [by apply NoDup_ListNoDup|]. split; [|apply NoDup_singleton]. intros x Hx1 Hx2. apply elem_of_list_singleton in Hx2. subst x. by apply elem_of_list_In in Hx1. }
        intros x [Hx|[<-|[]]]%in_app_or; [|split; [lia|done]]. destruct (C2 x Hx) as (? & sx & Hsx & Hpx). destruct (HS _ _ Hsx) as (s' & ? & _ & Hsp & _). split; [done|]. exists s'. split; [done|].
        rewrite Hsp; [done|]. intros ->. by apply Hno.
      + rewrite lookup_upd_ne, lookup_upd in Hm by done. injection Hm as <-. destruct (H5 c _ Hj (shapes_some _ _ _ Hc)) as (A & B & C & D). split; [right; destruct A as [[? _]|(? & ? & _)]; [done|by split]|]. cbn. split; [done|].
        split; [|intros q [= <-]; split; [lia|done]].
        intros Ht. destruct (C Ht) as [C1 C2]. split; [done|]. intros x Hx. destruct (C2 x Hx) as (? & sx & Hsx & Hpx). destruct (HS _ _ Hsx) as (s' & ? & _ & Hsp & _). split; [done|]. exists s'. split; [done|]. rewrite Hsp; [done|lia].
      + rewrite !lookup_upd_ne in Hm by done. destruct (H5 j _ Hj (shapes_some _ _ _ Hm)) as (A & B & C & D). split; [done|]. cbn. split; [done|]. split.
        * intros Ht. destruct (C Ht) as [C1 C2]. split; [done|]. intros x Hx. destruct (C2 x Hx) as (? & sx & Hsx & Hpx). destruct (HS _ _ Hsx) as (s' & ? & _ & Hsp & _). split; [done|]. exists s'. split; [done|].
          rewrite Hsp; [done|]. intros ->. rewrite (shapes_some _ _ _ Hc) in Hsx. injection Hsx as <-. cbn in Hpx. congruence.
        * intros q Hq. destruct (D q Hq) as (? & sp & Hsp & ? & Hin). destruct (HS _ _ Hsp) as (s' & ? & Ht & _ & Hch). split; [done|]. exists s'. split; [done|]. split; [congruence|by apply Hch].
    - intros j m Hj Hm. unfold adopted in Hm. destruct (decide (j = p)) as [->|Hjp]; [|destruct (decide (j = c)) as [->|Hjc]].
      + rewrite lookup_upd in Hm. injection Hm as <-. by apply (H6 p np).
      + rewrite lookup_upd_ne, lookup_upd in Hm by done. injection Hm as <-. by apply (H6 c nc).
      + rewrite !lookup_upd_ne in Hm by done. by apply (H6 j m).
  Qed.

  (** *** Computations *)
  Definition keeps {A} (h : heap) (m : M A) (R : A -> heap -> Prop) : Prop := P h -> forall h' r, m h = (h', r) ->
    P h' /\ stays h h' /\ forall a, r = Ok a -> R a h'.
  Lemma keeps_bind {A B} h (m : M A) (k : A -> M B) R Q : keeps h m R -> (forall a h1, P h1 -> stays h h1 -> R a h1 -> keeps h1 (k a) Q) -> keeps h (bind m k) Q.
  Proof.
    intros Hm Hk HP h' r H. unfold bind in H. destruct (m h) as [h1 [a|e|p|]] eqn:E; destruct (Hm HP _ _ E) as (HP1 & Hs1 & HR);
      [destruct (Hk a h1 HP1 Hs1 (HR a eq_refl) HP1 _ _ H) as (HP2 & Hs2 & HQ); split; [done|]; split; [by eapply stays_trans|done]|..]; injection H as <- <-; by split.
  Qed.
  Lemma keeps_ret {A} h (a : A) (R : A -> heap -> Prop) : R a h -> keeps h (ret a) R.
  Proof. intros HR HP h' r [= <- <-]. split; [done|]. split; [apply stays_refl|]. by intros b [= <-]. Qed.
  Lemma keeps_fail {A} h e (R : A -> heap -> Prop) : keeps h (fail e) R.
  Proof. intros HP h' r [= <- <-]. split; [done|]. split; [apply stays_refl|done]. Qed.
  Lemma keeps_panic {A} h e (R : A -> heap -> Prop) : keeps h (panic_ e) R.
  Proof. intros HP h' r [= <- <-]. split; [done|]. split; [apply stays_refl|done]. Qed.
  Lemma keeps_lift {A B} h f (k : A -> M B) R : (forall a, f h = Ok a -> keeps h (k a) R) -> keeps h (bind (lift f) k) R.
  Proof.
    intros HR HP h' r H. unfold bind, lift in H. destruct (f h) as [a|e|p|] eqn:Hf; [by apply (HR a eq_refl HP)|..]; injection H as <- <-; (split; [done|]; split; [apply stays_refl|done]).
  Qed.
  Lemma keeps_get {B} h i (k : node -> M B) R : (forall n, h_nodes h !! i = Some n -> keeps h (k n) R) -> keeps h (bind (getM i) k) R.
  Proof. intros HR. apply keeps_lift. intros n Hn. apply HR. unfold get_node in Hn. destruct (h_nodes h !! i); [by injection Hn as <-|done]. Qed.
  Lemma keeps_if {A} h (b : bool) (m m' : M A) R : (b = true -> keeps h m R) -> (b = false -> keeps h m' R) -> keeps h (if b then m else m') R.
  Proof. destruct b; auto. Qed.
  Lemma keeps_ext h i x n : (lo <= i)%nat -> h_nodes h !! i = Some n -> ext_fine lo x ->
    keeps h (modifyM i (set_ext x)) (fun _ h' => h' = upd i (set_ext x n) h).
  Proof.
    intros Hi Hn Hx HP h' r H. rewrite (modifyM_eq _ _ _ _ Hn) in H. injection H as <- <-. split; [by apply part_ext|]. split; [|done].
    intros j s Hj. rewrite (shapes_upd h i n) by done. eauto.
  Qed.
  Lemma stays_alloc h n : P h -> stays h (allocd n h).
  Proof.
    intros HP j s (m & Hm & ->)%shapes_inv. exists (shape_of m). split; [|done]. apply shapes_some. cbn. rewrite lookup_insert_ne; [done|]. intros Hj. rewrite <- Hj, (pa_none _ _ _ _ HP) in Hm by done. done.
  Qed.
  Lemma keeps_alloc h n : n_parent n = None -> n_owner n = Some d -> n_type n <> NDocument -> h_nodes h !! d <> None ->
    (n_children n = [] \/ n_type n = NAttribute /\ forall c, In c (n_children n) -> (lo <= c)%nat) -> nm_ns (n_name n) = None -> ext_fine lo (n_ext n) ->
    keeps h (allocM n) (fun c h' => c = h_next h /\ h' = allocd n h).
  Proof.
    intros H1 H2 H3 Hd H4 H5 H6 HP h' r [= <- <-]. split; [apply part_alloc; try done|split; [by apply stays_alloc|by intros a [= <-]]].
    intros E. apply Hd. rewrite <- E. apply (pa_none _ _ _ _ HP). lia.
  Qed.
  Lemma keeps_leaf h n : n_parent n = None -> n_owner n = Some d -> n_type n <> NDocument -> h_nodes h !! d <> None ->
    n_children n = [] -> nm_ns (n_name n) = None -> ext_fine lo (n_ext n) -> keeps h (allocM n) (fun c h' => c = h_next h /\ h' = allocd n h).
  Proof. intros. apply keeps_alloc; try done. by left. Qed.
  Definition parent_fine (h : heap) (p : id) : Prop := exists s, shapes h p = Some s /\ (lo <= p)%nat /\ sh_type s <> NAttribute.
  Lemma parent_stays h h' p : stays h h' -> parent_fine h p -> parent_fine h' p.
  Proof. intros Hs (s & H1 & H2 & H3). destruct (Hs p s H1) as (s' & H1' & Ht). exists s'. split; [done|]. split; [done|congruence]. Qed.
  Lemma alive_stays h h' i : stays h h' -> h_nodes h !! i <> None -> h_nodes h' !! i <> None.
  Proof.
    intros Hs Hi. destruct (h_nodes h !! i) as [n|] eqn:Hn; [|done]. destruct (Hs i _ (shapes_some _ _ _ Hn)) as (s' & H & _). apply shapes_inv in H as (n' & -> & _). done.
  Qed.
  Lemma parent_lt h p : P h -> parent_fine h p -> (p < h_next h)%nat.
  Proof.
    intros HP (s & (n & Hn & _)%shapes_inv & _). destruct (decide (p < h_next h)%nat); [done|]. rewrite (pa_none _ _ _ _ HP) in Hn by lia. done.
  Qed.
  Lemma keeps_append h p c nc : parent_fine h p -> h_nodes h !! c = Some nc -> (p < c)%nat -> n_parent nc = None -> c <> d ->
    keeps h (append_child p c) (fun a _ => a = c).
  Proof.
    intros (s & (np & Hp & ->)%shapes_inv & Hlo & Hna) Hc Hlt Hpar Hcd. unfold append_child, insert_before. cbn in Hna.
    apply keeps_get. intros np' Hp'. assert (np' = np) as -> by congruence. apply keeps_get. intros nc' Hc'. assert (nc' = nc) as -> by congruence.
    apply keeps_if; intros Hal; [apply keeps_fail|]. apply negb_false_iff in Hal.
    assert (Hfr : is_type NDocumentFragment nc = false).
    { apply is_type_false. intros Ht. rewrite Ht in Hal. by destruct (n_type np). }
    assert (HB : forall second : bool, keeps h (if second then fail HierarchyRequest else
      do? pos := ret None in
      do? _ := lift (fun h => check_same_document h p c) in
      do? parent := lift (fun h => parent_node h c) in
      do? _ := match parent with None => ret tt | Some p => do? _ := remove_child p c in ret tt end in
      if bool_decide (p = c) then panic_ PBorrow else
      do? _ := modifyM c (fun n => set_owner (if is_type NDocument np then Some p else n_owner np) (set_parent (Some p) n)) in
      do? _ := (if is_type NDocumentFragment nc then do? l := lift (fun h => child_nodes h c) in insert_all p l pos 0 else insert_or_append p c pos) in
      ret c) (fun a _ => a = c)).
    { intros second. apply keeps_if; intros _; [apply keeps_fail|]. intros HP h' r H. cbn [bind ret] in H. revert HP h' r H.
      change (keeps h (do? _ := lift (fun h => check_same_document h p c) in
        do? parent := lift (fun h => parent_node h c) in
        do? _ := match parent with None => ret tt | Some p => do? _ := remove_child p c in ret tt end in
        if bool_decide (p = c) then panic_ PBorrow else
        do? _ := modifyM c (fun n => set_owner (if is_type NDocument np then Some p else n_owner np) (set_parent (Some p) n)) in
        do? _ := (if is_type NDocumentFragment nc then do? l := lift (fun h => child_nodes h c) in insert_all p l None 0 else insert_or_append p c None) in
        ret c) (fun a _ => a = c)).
      apply keeps_lift. intros _ _. apply keeps_lift. intros parent Hparent. unfold parent_node in Hparent. rewrite (get_node_some _ _ _ Hc) in Hparent. cbn [rbind] in Hparent.
      rewrite Hpar in Hparent. assert (parent = None) as -> by (destruct (is_type NAttribute nc); by injection Hparent as <-).
      intros HP h' r H. rewrite Hfr in H. rewrite bool_decide_false in H by lia. unfold bind at 1, ret at 1 in H.
      assert (Hown : (if is_type NDocument np then Some p else n_owner np) = Some d).
      { destruct (pa_shape _ _ _ _ HP p _ Hlo (shapes_some _ _ _ Hp)) as [[(-> & Ht & _)|(Hpd & Ht & Ho)] _]; cbn in Ht.
        - by rewrite (proj2 (is_type_true _ _) Ht).
        - rewrite (proj2 (is_type_false _ _) Ht). done. }
      rewrite Hown in H. unfold bind at 1 in H. rewrite (modifyM_eq _ _ _ _ Hc) in H. unfold insert_or_append in H.
      assert (Hp2 : h_nodes (upd c (set_owner (Some d) (set_parent (Some p) nc)) h) !! p = Some np) by (rewrite lookup_upd_ne by lia; done).
      unfold bind at 1 in H. rewrite (bind_node _ _ _ _ Hp2) in H. rewrite (modifyM_eq _ _ _ _ Hp2) in H. injection H as <- <-.
      split; [by apply (part_adopt h p c np nc)|]. split; [|by intros a [= <-]].
      intros j s (m & Hm & ->)%shapes_inv. destruct (decide (j = p)) as [->|Hjp]; [|destruct (decide (j = c)) as [->|Hjc]].
      - eexists. split; [apply shapes_some, lookup_upd|]. rewrite Hp in Hm. by injection Hm as <-.
      - eexists. split; [apply shapes_some; rewrite lookup_upd_ne by done; apply lookup_upd|]. rewrite Hc in Hm. by injection Hm as <-.
      - eexists. split; [apply shapes_some; rewrite !lookup_upd_ne by done; exact Hm|]. done. }
    destruct (is_type NDocument np && is_type NElement nc).
    - apply keeps_lift. intros second _. apply HB.
    - intros HP h' r H. apply (HB false HP h' r H).
  Qed.
  Lemma keeps_set_attribute_node E h e a : (lo <= e)%nat -> (lo <= a)%nat -> keeps h (set_attribute_node E e a) (fun _ _ => True).
  Proof.
    intros He Ha. unfold set_attribute_node. apply keeps_get. intros ns Hns. apply keeps_get. intros na Hna. apply keeps_if; intros Hty; [apply keeps_fail|].
    apply negb_false_iff, andb_true_iff in Hty as [_ Hty%is_type_true]. apply keeps_lift. intros _ _.
    eapply (keeps_bind _ _ _ (fun _ h' => exists x, h' = upd a (set_ext x na) h)).
    { destruct (n_ext na); try apply keeps_panic. intros HP h' r H. destruct (keeps_ext h a (XAttribute (Some e)) na Ha Hna ltac:(by intros x [= <-]) HP h' r H) as (? & ? & HR). split; [done|]. split; [done|]. eauto. }
    intros _ h1 HP1 _ (x & ->). destruct (pa_node _ _ _ _ HP1 a _ Ha (lookup_upd _ _ _)) as [Hnm _]. cbn in Hnm.
    assert (is_namespace_attribute (n_name na) = false) as -> by (unfold is_namespace_attribute; by rewrite Hnm).
    eapply (keeps_bind _ _ _ (fun _ h' => h' = upd a (set_ext x na) h)); [by apply keeps_ret|]. intros _ h2 HP2 _ ->.
    set (h2 := upd a (set_ext x na) h) in *. assert (Ha2 : h_nodes h2 !! a = Some (set_ext x na)) by apply lookup_upd. clearbody h2.
    apply keeps_get. intros ns2 Hns2. destruct (n_ext ns2) as [|o|decl t m o|en no p1 p2 p3|al nss|p1 p2 p3|p1 p2] eqn:Hx; try apply keeps_fail.
    destruct (pa_node _ _ _ _ HP1 e _ He Hns2) as [_ Hfx]. rewrite Hx in Hfx. destruct Hfx as [-> Hal].
    eapply keeps_bind; [apply (keeps_ext _ _ _ ns2); [done|done|]|].
    { split; [done|]. intros k b Hb. apply hm_insert_in in Hb as [[_ ->]|Hb]; [done|by eapply Hal]. }
    cbn beta. intros _ h3 HP3 Hst ->. apply keeps_lift. intros d' Hd'.
    assert (d' = d).
    { destruct (Hst a _ (shapes_some _ _ _ Ha2)) as (s' & (n' & Hn' & ->)%shapes_inv & Hty'). cbn in Hty'.
      unfold owner_document in Hd'. rewrite (get_node_some _ _ _ Hn') in Hd'. cbn [rbind] in Hd'.
      destruct (pa_shape _ _ _ _ HP3 a _ Ha (shapes_some _ _ _ Hn')) as [[(_ & Ht & _)|(_ & _ & Ho)] _]; cbn in *; [congruence|].
      rewrite Ho in Hd'. unfold upgrade in Hd'. destruct (alive _ d); [by injection Hd'|done]. }
    subst d'. apply keeps_if; intros _; [apply keeps_panic|]. apply keeps_get. intros nd Hnd. apply keeps_if; intros _; [|by apply keeps_ret].
    destruct (n_ext nd) as [|o|decl t m o|en no p1 p2 p3|al' nss|p1 p2 p3|p1 p2] eqn:Hxd; try by apply keeps_ret.
    apply keeps_lift. intros v _. destruct (hm_get v m); [apply keeps_fail|].
    pose proof (pa_d _ _ _ _ HP3) as Hdlo. destruct (pa_node _ _ _ _ HP3 d nd Hdlo Hnd) as [_ Hfd]. rewrite Hxd in Hfd. destruct Hfd as [-> Hm].
    eapply keeps_bind; [apply (keeps_ext _ _ _ nd); [done|done|]|intros _ h4 _ _ _; by apply keeps_ret].
    split; [done|]. intros w b Hb. apply hm_insert_in in Hb as [[_ ->]|Hb]; [done|by eapply Hm].
  Qed.

  (** *** The parser *)
  Definition pkeeps {A} (h : heap) (m : PM A) (R : A -> heap -> Prop) : Prop := P h -> forall h' r, m h = (h', r) ->
    P h' /\ stays h h' /\ forall a, r = POk a -> R a h'.
  Lemma pk_bind {A B} h (m : PM A) (k : A -> PM B) R Q : pkeeps h m R -> (forall a h1, P h1 -> stays h h1 -> R a h1 -> pkeeps h1 (k a) Q) -> pkeeps h (pbind m k) Q.
  Proof.
    intros Hm Hk HP h' r H. unfold pbind in H. destruct (m h) as [h1 [a|e|p|]] eqn:E; destruct (Hm HP _ _ E) as (HP1 & Hs1 & HR);
      [destruct (Hk a h1 HP1 Hs1 (HR a eq_refl) HP1 _ _ H) as (HP2 & Hs2 & HQ); split; [done|]; split; [by eapply stays_trans|done]|..]; injection H as <- <-; by split.
  Qed.
  Lemma pk_dom {A} h (m : M A) R : keeps h m R -> pkeeps h (pdom m) R.
  Proof.
    intros Hm HP h' r H. unfold pdom in H. destruct (m h) as [h1 r1] eqn:E. destruct (Hm HP _ _ E) as (HP1 & Hs1 & HR).
    destruct r1; injection H as <- <-; (split; [done|]; split; [done|]); intros b [=]; subst; by apply HR.
  Qed.
  Lemma pk_dom_unwrap {A} h (m : M A) R : keeps h m R -> pkeeps h (pdom_unwrap m) R.
  Proof.
    intros Hm. apply pk_dom. intros HP h' r H. unfold err_to_panic in H. destruct (m h) as [h1 r1] eqn:E. destruct (Hm HP _ _ E) as (HP1 & Hs1 & HR).
    destruct r1; injection H as <- <-; (split; [done|]; split; [done|]); intros b [=]; subst; by apply HR.
  Qed.
  Lemma pk_same {A} h (m : PM A) : (exists r, m h = (h, r)) -> pkeeps h m (fun _ h' => h' = h).
  Proof. intros (r0 & Hr) HP h' r H. rewrite Hr in H. injection H as <- <-. split; [done|]. split; [apply stays_refl|done]. Qed.
  Lemma pk_any {A} h (m : PM A) R : pkeeps h m R -> pkeeps h m (fun _ _ => True).
  Proof. intros Hm HP h' r H. destruct (Hm HP _ _ H) as (? & ? & _). done. Qed.
  Lemma decode_same h o : exists r, pdecode o h = (h, r). Proof. destruct o; eexists; reflexivity. Qed.
  Lemma pk_decode {B} h o (k : str -> PM B) R : (forall s, pkeeps h (k s) R) -> pkeeps h (pbind (pdecode o) k) R.
  Proof. intros Hk. eapply pk_bind; [apply pk_same, decode_same|]. intros s h1 _ _ ->. apply Hk. Qed.
  Lemma keeps_handle {A} h i (m : M A) R : keeps h m R -> keeps h (with_handle i m) R.
  Proof. intros Hm. unfold with_handle. apply keeps_get. by intros n _. Qed.
  Lemma keeps_name {A} h s (k : Name -> M A) R : (forall nm, nm_ns nm = None -> keeps h (k nm) R) -> keeps h (bind (lift (fun _ => name_from_str s)) k) R.
  Proof. intros Hk. apply keeps_lift. intros nm Hnm. apply Hk. by destruct (name_from_str_print _ _ Hnm). Qed.
  Definition there (h : heap) : Prop := h_nodes h !! d <> None.

  Lemma pk_attrs E el l : forall h, (lo <= el)%nat -> there h -> pkeeps h (handle_attributes E d el l) (fun _ _ => True).
  Proof.
    induction l as [|[name v| |] l IH]; intros h Hel Hd; cbn [handle_attributes].
    - eapply pk_any, pk_same. by eexists.
    - apply (pk_bind _ _ _ (fun a h' => (lo <= a)%nat)).
      { apply pk_dom. unfold create_attribute_with. apply keeps_handle, keeps_name. intros nm Hnm. intros HP. pose proof (pa_next _ _ _ _ HP) as Hnx. revert HP.
        unfold new_attribute. cut (keeps h (do? a := do? children := (do? t := allocM (new_text d v) in ret [t]) in ret (mkNode NAttribute nm None None (Some d) children (XAttribute None)) in allocM a) (fun a _ => (lo <= a)%nat)); [done|].
        eapply (keeps_bind _ _ _ (fun n h1 => n = mkNode NAttribute nm None None (Some d) [h_next h] (XAttribute None))).
        - eapply (keeps_bind _ _ _ (fun cs h1 => cs = [h_next h])); [|intros cs h1 _ _ ->; by apply keeps_ret]. eapply keeps_bind; [by apply keeps_leaf|]. cbn beta. intros t h1 _ _ [-> _]. by apply keeps_ret.
        - intros n h1 HP1 Hs1 ->. intros HP h' r H. assert (Hd1 : there h1) by (by eapply alive_stays). eapply keeps_alloc in H as (? & ? & HR); try done.
          + split; [done|]. split; [done|]. intros a Ha. destruct (HR a Ha) as [-> _]. apply (pa_next _ _ _ _ HP1).
          + right. split; [done|]. by intros c [<-|[]]. }
      intros a h1 HP1 Hs1 Ha. eapply pk_bind; [apply pk_dom; by apply keeps_set_attribute_node|]. intros _ h2 _ Hs2 _. apply IH; [done|]. eapply alive_stays; [exact Hs2|]. by eapply alive_stays.
    - eapply pk_any, pk_same. by eexists.
    - eapply pk_any, pk_same. by eexists.
  Qed.
  (** A node is made and appended. *)
  Lemma pk_made h (m : PM id) p : parent_fine h p -> there h ->
    pkeeps h m (fun c h1 => c = h_next h /\ exists n, h1 = allocd n h /\ n_parent n = None) ->
    pkeeps h (pbind m (fun n => pdom (append_child p n))) (fun c h1 => c = h_next h).
  Proof.
    intros Hp Hd Hm HP. pose proof (parent_lt h p HP Hp) as Hlt.
    assert (Hne : h_next h <> d) by (intros E; apply Hd; rewrite <- E; apply (pa_none _ _ _ _ HP); lia).
    revert HP. eapply pk_bind; [exact Hm|]. intros c h1 HP1 Hs1 (-> & n & -> & Hn). apply pk_dom.
    eapply (keeps_append _ _ _ n); [by eapply parent_stays| |done|done|done]. cbn; apply lookup_insert.
  Qed.
  Lemma made_of h (m : M id) n : keeps h m (fun c h' => c = h_next h /\ h' = allocd n h) -> n_parent n = None ->
    keeps h m (fun c h1 => c = h_next h /\ exists n, h1 = allocd n h /\ n_parent n = None).
  Proof. intros Hm Hn HP h' r H. destruct (Hm HP _ _ H) as (? & ? & HR). split; [done|]. split; [done|]. intros a Ha. destruct (HR a Ha). eauto. Qed.
  Lemma pk_comment h p t : parent_fine h p -> there h -> pkeeps h (handle_comment d p t) (fun _ _ => True).
  Proof.
    intros Hp Hd. eapply pk_any. unfold handle_comment. apply pk_decode. intros s. apply pk_made; [done|done|]. apply pk_dom, keeps_handle. eapply made_of; [by apply keeps_leaf|done].
  Qed.
  Lemma pk_text h p t : parent_fine h p -> there h -> pkeeps h (handle_text d p t) (fun _ _ => True).
  Proof.
    intros Hp Hd. eapply pk_any. unfold handle_text. apply pk_decode. intros s. apply pk_made; [done|done|]. apply pk_dom, keeps_handle. eapply made_of; [by apply keeps_leaf|done].
  Qed.
  Lemma pk_cdata h p t : parent_fine h p -> there h -> pkeeps h (handle_cdata d p t) (fun _ _ => True).
  Proof.
    intros Hp Hd. eapply pk_any. unfold handle_cdata. apply pk_decode. intros s. apply pk_made; [done|done|]. apply pk_dom_unwrap, keeps_handle. eapply made_of; [by apply keeps_leaf|done].
  Qed.
  Lemma pk_pi h p t : parent_fine h p -> there h -> pkeeps h (handle_pi d p t) (fun _ _ => True).
  Proof.
    intros Hp Hd. eapply pk_any. unfold handle_pi. apply pk_decode. intros s. destruct (pi_parts s) as [target o]. apply pk_made; [done|done|].
    apply pk_dom_unwrap, keeps_handle. apply keeps_if; intros _; [apply keeps_fail|]. apply keeps_name. intros nm Hnm. eapply made_of; [by apply keeps_leaf|done].
  Qed.
  Lemma pk_start E h p name l : parent_fine h p -> there h -> pkeeps h (handle_start E d p name l) (fun el h' => parent_fine h' el).
  Proof.
    intros Hp Hd. unfold handle_start. apply pk_decode. intros s HP. pose proof (parent_lt h p HP Hp) as Hlt. pose proof (pa_next _ _ _ _ HP) as Hnx.
    assert (Hne : h_next h <> d) by (intros E0; apply Hd; rewrite <- E0; apply (pa_none _ _ _ _ HP); lia). revert HP.
    eapply (pk_bind _ _ _ (fun el h1 => el = h_next h /\ exists nm, h1 = allocd (new_element d nm) h)).
    { apply pk_dom_unwrap. apply keeps_handle, keeps_name. intros nm Hnm HP h' r H. eapply (keeps_leaf h (new_element d nm)) in H as (? & ? & HR); try done.
      split; [done|]. split; [done|]. intros a Ha. destruct (HR a Ha). eauto. }
    intros el h1 HP1 Hs1 (-> & nm & ->).
    assert (Hel : parent_fine (allocd (new_element d nm) h) (h_next h)).
    { eexists. split; [apply shapes_some; cbn; apply lookup_insert|]. by split. }
    eapply pk_bind; [apply pk_dom; eapply keeps_append; [by eapply parent_stays|cbn; apply lookup_insert|done|done|done]|]. cbn beta. intros el h2 HP2 Hs2 ->.
    assert (Hd2 : there h2) by (eapply alive_stays; [exact Hs2|by eapply alive_stays]).
    eapply pk_bind; [by apply pk_attrs|]. intros _ h3 HP3 Hs3 _. intros HP h' r [= <- <-]. split; [done|]. split; [apply stays_refl|]. intros a [= <-].
    eapply parent_stays; [exact Hs3|]. by eapply parent_stays.
  Qed.
  Lemma pk_decl h v e s : there h -> pkeeps h (handle_decl d v e s) (fun _ _ => True).
  Proof.
    intros Hd. unfold handle_decl. eapply pk_bind; [apply pk_same; by eexists (match xml_declaration h d with Ok a => POk a | Err e => PErr (PEDom e) | Panic p => PPanic p | Diverge => PDiverge end); unfold pdom, lift; destruct (xml_declaration h d)|].
    intros [old|] h1 _ _ ->; [eapply pk_any, pk_same; by eexists|]. eapply pk_bind; [apply pk_same|].
    { unfold make_decl, pbind, punwrap. destruct v as [v|]; [|by eexists]. destruct (unquote v); try by eexists. destruct e as [[e|]|]; try (by eexists); destruct s as [[s|]|]; by eexists. }
    intros x h2 _ _ ->. eapply pk_bind; [apply pk_same; unfold punwrap; destruct (version_from_str _); by eexists|]. intros y h3 _ _ ->.
    eapply pk_bind; [apply pk_same; unfold pdom, lift; destruct (xml_decl_new _ _ _); by eexists|]. intros z h4 _ _ ->. apply pk_dom.
    unfold set_xml_declaration. apply keeps_get. intros n Hn. destruct (n_ext n) as [|o|decl t m o|en no p1 p2 p3|al nss|p1 p2 p3|p1 p2] eqn:Hx; try apply keeps_fail.
    intros HP h' r H. pose proof (pa_d _ _ _ _ HP) as Hdlo. destruct (pa_node _ _ _ _ HP d n Hdlo Hn) as [_ Hf]. rewrite Hx in Hf.
    eapply keeps_ext in H as (? & ? & _); try done.
  Qed.
  Lemma part_element E : forall k p evs h h' rest r, P h -> there h -> parent_fine h p -> element k E d p evs h = (h', rest, r) -> P h' /\ stays h h'.
  Proof.
    induction k as [|k IH]; intros p evs h h' rest r HP Hd Hp H; [injection H as <- <- <-; split; [done|apply stays_refl]|]. cbn [element] in H.
    assert (HS : forall A (m : PM A) rest0 R, pkeeps h m R ->
      match m h with
      | (h1, POk _) => element k E d p rest0 h1
      | (h1, PErr e) => (h1, rest0, PErr e)
      | (h1, PPanic p) => (h1, rest0, PPanic p)
      | (h1, PDiverge) => (h1, rest0, PDiverge)
      end = (h', rest, r) -> P h' /\ stays h h').
    { intros A m rest0 R Hm H0. destruct (m h) as [h1 [x|e|x|]] eqn:Em; destruct (Hm HP _ _ Em) as (HP1 & Hs1 & _); [|by injection H0 as <- <- <-..].
      apply IH in H0 as [HP2 Hs2]; [|done|by eapply alive_stays|by eapply parent_stays]. split; [done|by eapply stays_trans]. }
    destruct evs as [|ev evs]; [injection H as <- <- <-; split; [done|apply stays_refl]|].
    destruct ev as [v e s|name attrs|name attrs| |t|t|t|t| |]; try (injection H as <- <- <-; split; [done|apply stays_refl]).
    - destruct (handle_start E d p name attrs h) as [h1 [x|e|x|]] eqn:Em; destruct (pk_start _ _ _ _ _ Hp Hd HP _ _ Em) as (HP1 & Hs1 & HR); try by injection H as <- <- <-.
      destruct (element k E d x evs h1) as [[h2 rest2] r2] eqn:Ee. assert (Hd1 : there h1) by (by eapply alive_stays).
      apply IH in Ee as [HP2 Hs2]; [|done|done|by apply HR]. assert (Hs12 : stays h h2) by (by eapply stays_trans). destruct r2 as [y|y|y|]; [|by injection H as <- <- <-..].
      apply IH in H as [HP3 Hs3]; [|done|by eapply alive_stays|by eapply parent_stays]. split; [done|by eapply stays_trans].
    - eapply HS; [|exact H]. by apply pk_start.
    - eapply HS; [|exact H]. by apply pk_comment.
    - eapply HS; [|exact H]. by apply pk_pi.
    - eapply HS; [|exact H]. by apply pk_text.
    - eapply HS; [|exact H]. by apply pk_cdata.
  Qed.
  Lemma part_document E : forall k evs h h' r, P h -> there h -> parent_fine h d -> document_loop k E d evs h = (h', r) -> P h' /\ stays h h' /\ forall a, r = POk a -> a = d.
  Proof.
    induction k as [|k IH]; intros evs h h' r HP Hd Hp H; [injection H as <- <-; split; [done|]; by split; [apply stays_refl|]|]. cbn [document_loop] in H.
    assert (HS : forall A (m : PM A) rest0 R, pkeeps h m R ->
      match m h with
      | (h1, POk _) => document_loop k E d rest0 h1
      | (h1, PErr e) => (h1, PErr e)
      | (h1, PPanic p) => (h1, PPanic p)
      | (h1, PDiverge) => (h1, PDiverge)
      end = (h', r) -> P h' /\ stays h h' /\ forall a, r = POk a -> a = d).
    { intros A m rest0 R Hm H0. destruct (m h) as [h1 [x|e|x|]] eqn:Em; destruct (Hm HP _ _ Em) as (HP1 & Hs1 & _); [|by injection H0 as <- <-..].
      apply IH in H0 as (HP2 & Hs2 & Hr); [|done|by eapply alive_stays|by eapply parent_stays]. split; [done|]. split; [by eapply stays_trans|done]. }
    destruct evs as [|ev evs]; [injection H as <- <-; split; [done|]; split; [apply stays_refl|]; by intros a [= <-]|].
    destruct ev as [v e s|name attrs|name attrs| |t|t|t|t| |]; try (injection H as <- <-; split; [done|]; by split; [apply stays_refl|]).
    - eapply HS; [|exact H]. by apply pk_decl.
    - destruct (handle_start E d d name attrs h) as [h1 [x|e|x|]] eqn:Em; destruct (pk_start _ _ _ _ _ Hp Hd HP _ _ Em) as (HP1 & Hs1 & HR); try by injection H as <- <-.
      destruct (element (S (length evs)) E d x evs h1) as [[h2 rest2] r2] eqn:Ee. assert (Hd1 : there h1) by (by eapply alive_stays).
      apply part_element in Ee as [HP2 Hs2]; [|done|done|by apply HR]. assert (Hs12 : stays h h2) by (by eapply stays_trans).
      destruct r2 as [y|y|y|]; try by injection H as <- <-.
      all: apply IH in H as (HP3 & Hs3 & Hr); [|done|by eapply alive_stays|by eapply parent_stays]; split; [done|]; split; [by eapply stays_trans|done].
    - eapply HS; [|exact H]. by apply pk_start.
    - by apply (IH evs).
    - eapply HS; [|exact H]. by apply pk_comment.
    - eapply HS; [|exact H]. by apply pk_pi.
  Qed.
End part.
Lemma read_part E evs h h' r : (forall i, (h_next h <= i)%nat -> h_nodes h !! i = None) -> read_events E evs h = (h', r) ->
  part (h_next h) (h_next h) h h' /\ (exists n, h_nodes h' !! h_next h = Some n /\ n_type n = NDocument) /\ forall a, r = POk a -> a = h_next h.
Proof.
  intros Hf H. change (read_events E evs h) with (document_loop (S (length evs)) E (h_next h) evs (allocd (new_document None (set_add_namespaces options_new)) h)) in H.
  set (h1 := allocd (new_document None (set_add_namespaces options_new)) h) in *.
  assert (Hl : h_nodes h1 !! h_next h = Some (new_document None (set_add_namespaces options_new))) by (cbn; apply lookup_insert).
  assert (HP : part (h_next h) (h_next h) h h1).
  { split; try done; [cbn; lia|..].
    - intros i Hi. cbn. rewrite lookup_insert_ne by lia. done.
    - cbn. intros i Hi. rewrite lookup_insert_ne by lia. apply Hf. lia.
    - intros i s Hi (n & Hn & ->)%shapes_inv. destruct (decide (i = h_next h)) as [->|Hne]; [|cbn in Hn; rewrite lookup_insert_ne, Hf in Hn by done; done].
      rewrite Hl in Hn. injection Hn as <-. split; [by left|]. split; [done|]. split; [|done]. intros _. split; [constructor|done].
    - intros i n Hi Hn. destruct (decide (i = h_next h)) as [->|Hne]; [|cbn in Hn; rewrite lookup_insert_ne, Hf in Hn by done; done].
      rewrite Hl in Hn. injection Hn as <-. done. }
  apply (part_document (h_next h) (h_next h) h) in H as (HP' & Hs & Hr); [|done|unfold there; by rewrite Hl|].
  - split; [done|]. split; [|done]. destruct (Hs _ _ (shapes_some _ _ _ Hl)) as (s' & (n & Hn & ->)%shapes_inv & Ht). eauto.
  - eexists. split; [by apply shapes_some|]. by split.
Qed.
