(** * ProofWildInv: the part of the state invariant that needs no typed calls

    Compared with ProofInv.v: an owner need not be a document, the document type of a document need not be
    one, and a node may name a parent that does not list it. *)
From Coq Require Import Lia.
From Verif Require Import SpecWild SpecName ProofText ProofName ProofInv.

Section ok.
  Context (I : id -> option sinfo) (nx : nat).
  Definition wext_ok (n : node) : Prop :=
    match n_ext n with
    | XNone => match n_type n with
               | NText | NCData | NComment | NProcessingInstruction | NDocumentFragment | NEntityReference => True
               | _ => False end
    | XAttribute o => n_type n = NAttribute /\
        forall e, o = Some e -> (e < nx)%nat /\ forall s, I e = Some s -> s_type s = NElement
    | XDocument _ dt m _ => n_type n = NDocument /\
        (forall t, dt = Some t -> exists s, I t = Some s) /\
        (forall k e, In (k, e) m -> (e < nx)%nat /\ forall s, I e = Some s -> s_type s = NElement)
    | XDocumentType es ns _ _ _ => n_type n = NDocumentType /\ es = [] /\ ns = []
    | XElement attrs nss => n_type n = NElement /\ List.NoDup (map fst attrs) /\
        (forall k a, In (k, a) attrs ->
          exists s, I a = Some s /\ s_type s = NAttribute /\ s_name s = k /\ s_owner s = n_owner n) /\
        List.NoDup (map fst nss) /\ (forall k u, In (k, u) nss -> k = None \/ k = Some XMLNS_NS_ATTRIBUTE)
    | XEntity _ _ _ => n_type n = NEntity
    | XNotation _ _ => n_type n = NNotation
    end.
  Definition wowner_ok (n : node) : Prop :=
    match n_type n with
    | NDocument | NDocumentType => n_owner n = None
    | _ => exists d, n_owner n = Some d /\ (d < nx)%nat
    end.
  Definition wnode_ok (i : id) (n : node) : Prop :=
    wext_ok n /\ wowner_ok n /\ parent_ok I nx n /\ children_ok I i n /\ name_ok n.
End ok.

Record WInv (h : heap) : Prop := {
  winv_lt : forall i n, h_nodes h !! i = Some n -> (i < h_next h)%nat;
  winv_node : forall i n, h_nodes h !! i = Some n -> wnode_ok (info h) (h_next h) i n }.

Lemma winv_empty : WInv empty_heap.
Proof. split; cbn; intros *; by rewrite ?lookup_empty. Qed.

(** ** Stability of [wnode_ok] when other nodes appear or disappear *)
Lemma wnode_ok_mono (I I' : id -> option sinfo) nx nx' i n :
  (forall r s, In r (strong_refs n) -> I r = Some s -> I' r = Some s) ->
  (forall j s, I' j = Some s -> (j < nx)%nat -> I j = Some s) -> (nx <= nx')%nat ->
  wnode_ok I nx i n -> wnode_ok I' nx' i n.
Proof.
  intros HA HB HC (He & Ho & Hp & Hc & Hn).
  assert (HE : forall r, In r (ext_refs (n_ext n)) -> In r (strong_refs n)).
  { intros r Hr. unfold strong_refs. apply in_app_iff. by right. }
  assert (HCh : forall r, In r (n_children n) -> In r (strong_refs n)).
  { intros r Hr. unfold strong_refs. apply in_app_iff. by left. }
  split; [|split; [|split; [|split; [|done]]]].
  - unfold wext_ok in *. destruct (n_ext n) as [| o | d dt m op | es ns | attrs nss | |] eqn:Hx; try done.
    + destruct He as [Ht He]. split; [done|]. intros e Hoe. destruct (He e Hoe) as [Hlt Hs]. split; [lia|].
      intros s Hs'. eauto.
    + destruct He as (Ht & Hdt & Hm). split; [done|]. split.
      * intros t Ht'. destruct (Hdt t Ht') as (s & Hs). exists s. apply HA; [|done].
        apply HE. subst. by left.
      * intros k e Hin. destruct (Hm k e Hin) as [Hlt Hs]. split; [lia|]. eauto.
    + destruct He as (Ht & Hnd & Ha & Hns). split; [done|]. split; [done|]. split; [|done]. intros k a Hin.
      destruct (Ha k a Hin) as (s & Hs & Hr). exists s. split; [|done]. apply HA; [|done]. apply HE. cbn.
      apply in_map_iff. by exists (k, a).
  - unfold wowner_ok in *. destruct (n_type n); try done; destruct Ho as (d & Hd & Hlt); exists d;
      (split; [done|]); lia.
  - intros p Hpp. destruct (Hp p Hpp) as (Hlt & Hcb & Hs). split; [lia|]. split; [done|]. eauto.
  - destruct Hc as [Hc Hone]. split.
    + intros c Hin. destruct (Hc c Hin) as (Hne & s & Hs & Hl). split; [done|]. exists s. eauto.
    + intros Ht j k a b sa sb Ha Hb Hsa Hsb Hta Htb.
      destruct (Hc a) as (_ & sa' & Hsa' & _); [by eapply elem_of_list_In, elem_of_list_lookup_2|].
      destruct (Hc b) as (_ & sb' & Hsb' & _); [by eapply elem_of_list_In, elem_of_list_lookup_2|].
      assert (I' a = Some sa') by (apply HA; [apply HCh; by eapply elem_of_list_In, elem_of_list_lookup_2|done]).
      assert (I' b = Some sb') by (apply HA; [apply HCh; by eapply elem_of_list_In, elem_of_list_lookup_2|done]).
      simplify_eq. eauto.
Qed.
Lemma wnode_ok_ext (I I' : id -> option sinfo) nx i n : (forall j, I' j = I j) -> wnode_ok I nx i n -> wnode_ok I' nx i n.
Proof. intros H. apply wnode_ok_mono; [intros r s _ Hr; by rewrite H|intros j s Hj _; by rewrite <- H|done]. Qed.

Inductive wprim : lab -> heap -> heap -> Prop :=
| wpr_alloc h n : wnode_ok (info h) (h_next h) (h_next h) n -> n_parent n = None -> wprim (LAlloc n) h (allocd n h)
| wpr_value h i n v : h_nodes h !! i = Some n -> wprim (LValue i) h (upd i (set_value v n) h)
| wpr_attach h p c np nc k :
    h_nodes h !! p = Some np -> h_nodes h !! c = Some nc -> p <> c -> can_be_child (n_type nc) = true ->
    link_ok (static np) (static nc) -> (n_type np = NDocument -> n_owner nc = Some p) ->
    (n_type np = NDocument -> n_type nc = NElement ->
       forall x s, In x (n_children np) -> info h x = Some s -> s_type s <> NElement) ->
    upgrade h (n_parent nc) = None -> (k <= length (n_children np))%nat ->
    wprim (LAttach p c (is_nil (n_children nc))) h
      (upd p (set_children (take k (n_children np) ++ c :: drop k (n_children np)) np) (upd c (set_parent (Some p) nc) h))
| wpr_remove h p c np nc k :
    h_nodes h !! p = Some np -> h_nodes h !! c = Some nc -> position c (n_children np) = Some k ->
    wprim (LRemove p (n_type np) c) h (upd c (set_parent None nc) (upd p (set_children (delete k (n_children np)) np) h))
| wpr_detach h p c np nc k :
    h_nodes h !! p = Some np -> h_nodes h !! c = Some nc -> position c (n_children np) = Some k ->
    n_parent nc = Some p ->
    wprim (LDetach p c) h (upd c (set_parent None nc) (upd p (set_children (delete k (n_children np)) np) h))
| wpr_clear h i n : h_nodes h !! i = Some n -> wprim (LClear i) h (upd i (set_children [] n) h)
| wpr_ext h i n x : h_nodes h !! i = Some n -> ext_change (n_ext n) x ->
    wext_ok (info h) (h_next h) (set_ext x n) -> wprim (LExt i (n_ext n) x) h (upd i (set_ext x n) h)
| wpr_unparent h i n : h_nodes h !! i = Some n -> wprim (LUnparent i (n_type n)) h (upd i (set_parent None n) h)
| wpr_drop h l : can_drop h l -> wprim (LDrop l) h (dropped l h).

(** ** Each primitive step keeps the invariant *)
Lemma winv_same_info h h' :
  WInv h -> h_next h' = h_next h -> (forall j, info h' j = info h j) ->
  (forall i n', h_nodes h' !! i = Some n' -> h_nodes h !! i = Some n' \/ wnode_ok (info h) (h_next h) i n') ->
  WInv h'.
Proof.
  intros HI Hx Hinfo Hn. split; [|intros i n' H'].
  - intros i n H. rewrite Hx. specialize (Hinfo i). rewrite (info_some _ _ _ H) in Hinfo. symmetry in Hinfo.
    apply info_inv in Hinfo as (m & Hm & _). by eapply winv_lt.
  - rewrite Hx. apply (wnode_ok_ext (info h)); [done|]. destruct (Hn i n' H') as [H|H]; [by apply winv_node|done].
Qed.

Lemma wext_ok_dyn I nx n n' : n_ext n' = n_ext n -> static n' = static n -> wext_ok I nx n -> wext_ok I nx n'.
Proof.
  intros Hx Hs. injection Hs as Ht _ Ho. unfold wext_ok. rewrite Hx, Ht.
  by destruct (n_ext n); rewrite ?Ho.
Qed.
Lemma wowner_ok_dyn nx n n' : static n' = static n -> wowner_ok nx n -> wowner_ok nx n'.
Proof. intros Hs. injection Hs as Ht _ Ho. unfold wowner_ok. by rewrite Ht, Ho. Qed.

Lemma wremove_inv h p c np nc k :
  h_nodes h !! p = Some np -> h_nodes h !! c = Some nc -> position c (n_children np) = Some k -> WInv h ->
  WInv (upd c (set_parent None nc) (upd p (set_children (delete k (n_children np)) np) h)).
Proof.
  intros Hp Hc Hk HI. apply position_lookup in Hk as [Hk Hfirst].
  assert (Hin : In c (n_children np)) by (by eapply elem_of_list_In, elem_of_list_lookup_2).
  destruct (winv_node h HI p np Hp) as (G1 & G2 & G3 & [G4 G4'] & G5).
  assert (Hpc : p <> c) by (destruct (G4 c Hin); congruence).
  assert (Hinfo : forall j, info (upd c (set_parent None nc) (upd p (set_children (delete k (n_children np)) np) h)) j = info h j).
  { intros j. rewrite (info_upd c _ nc); [by apply (info_upd p _ np)| |done]. cbn. by rewrite lookup_insert_ne by congruence. }
  apply (winv_same_info h); [done|done|done|].
  - intros j m Hm. upd_cases Hm; [|upd_cases Hm; [|by left]]; right.
    + destruct (winv_node h HI c nc Hc) as (F1 & F2 & F3 & F4 & F5).
      split; [by eapply wext_ok_dyn|]. split; [by eapply wowner_ok_dyn|].
      split; [eapply parent_ok_dyn; [done|by right|done]|]. split; [by eapply children_ok_dyn|by eapply name_ok_dyn].
    + split; [by eapply wext_ok_dyn|]. split; [by eapply wowner_ok_dyn|]. split; [eapply parent_ok_dyn; [done|by left|done]|].
      split; [|by eapply name_ok_dyn]. split; cbn [n_children set_children n_type].
      * intros x Hx%In_delete. by apply G4.
      * intros Ht j1 k1 a b sa sb Ha Hb Hsa Hsb Hta Htb. rewrite lookup_delete_list in Ha, Hb.
        destruct (decide (j1 < k)%nat), (decide (k1 < k)%nat);
          pose proof (G4' Ht _ _ _ _ _ _ Ha Hb Hsa Hsb Hta Htb); lia.
Qed.

Lemma wprim_inv l h h' : wprim l h h' -> WInv h -> WInv h'.
Proof.
  intros Hp HI. destruct Hp.
  - (* alloc *)
    assert (Hfresh : h_nodes h !! h_next h = None).
    { destruct (h_nodes h !! h_next h) eqn:E; [|done]. apply (winv_lt h HI) in E. lia. }
    assert (Hi : forall j s, info h j = Some s -> info (allocd n h) j = Some s).
    { intros j s Hj. unfold info, allocd in *. cbn. rewrite lookup_insert_ne; [done|]. intros <-. by rewrite Hfresh in Hj. }
    assert (Hi' : forall j s, info (allocd n h) j = Some s -> (j < h_next h)%nat -> info h j = Some s).
    { intros j s Hj Hlt. unfold info, allocd in *. cbn in Hj. rewrite lookup_insert_ne in Hj by lia. done. }
    split.
    + intros i m Hm. unfold allocd in *. cbn in *. apply lookup_insert_Some in Hm as [[<- _]|[_ Hm]]; [lia|].
      apply (winv_lt h HI) in Hm. lia.
    + intros i m Hm. apply (wnode_ok_mono (info h) _ (h_next h)); [eauto|done|cbn; lia|].
      unfold allocd in Hm. cbn in Hm. apply lookup_insert_Some in Hm as [[<- <-]|[_ Hm]]; [done|]. by apply winv_node.
  - (* value *)
    apply (winv_same_info h); [done|done|by eapply info_upd|].
    + intros j m Hm. upd_cases Hm; [|by left]. right.
      destruct (winv_node h HI i n H) as (H1 & H2 & H3 & H4 & H5).
      split; [by eapply wext_ok_dyn|]. split; [by eapply wowner_ok_dyn|]. split; [eapply parent_ok_dyn; [done|by left|done]|].
      split; [by eapply children_ok_dyn|by eapply name_ok_dyn].
  - (* attach *)
    assert (Hinfo : forall j, info (upd p (set_children (take k (n_children np) ++ c :: drop k (n_children np)) np)
                                (upd c (set_parent (Some p) nc) h)) j = info h j).
    { intros j. rewrite (info_upd p _ np); [by apply (info_upd c _ nc)| |done]. cbn. by rewrite lookup_insert_ne by congruence. }
    apply (winv_same_info h); [done|done|done|].
    + intros j m Hm. upd_cases Hm; [|upd_cases Hm; [|by left]]; right.
      * destruct (winv_node h HI p np H) as (G1 & G2 & G3 & [G4 G4'] & G5).
        split; [by eapply wext_ok_dyn|]. split; [by eapply wowner_ok_dyn|]. split; [eapply parent_ok_dyn; [done|by left|done]|].
        split; [|by eapply name_ok_dyn]. split; cbn [n_children set_children n_type].
        -- intros x Hx. apply In_insert in Hx as [->|Hx]; [|by apply G4]. split; [done|].
           exists (static nc). split; [by apply info_some|done].
        -- intros Ht j1 k1 a b sa sb Ha Hb Hsa Hsb Hta Htb.
           destruct (decide (n_type nc = NElement)) as [Hel|Hel].
           ++ assert (G : forall j x s, (take k (n_children np) ++ c :: drop k (n_children np)) !! j = Some x ->
                info h x = Some s -> s_type s = NElement -> j = k).
              { intros j x s Hj Hs Hst. destruct (lookup_insert_list c k _ j x H7 Hj) as [[_ Hl]|[[-> _]|[_ Hl]]]; [|done|];
                  exfalso; eapply H5; try done; by eapply elem_of_list_In, elem_of_list_lookup_2. }
              rewrite (G _ _ _ Ha Hsa Hta), (G _ _ _ Hb Hsb Htb). done.
           ++ assert (Hca : a <> c) by (intros ->; rewrite (info_some _ _ _ H0) in Hsa; injection Hsa as <-; done).
              assert (Hcb : b <> c) by (intros ->; rewrite (info_some _ _ _ H0) in Hsb; injection Hsb as <-; done).
              destruct (lookup_insert_list c k _ _ _ H7 Ha) as [[L1 A1]|[[_ ?]|[L1 A1]]]; [|done|];
              destruct (lookup_insert_list c k _ _ _ H7 Hb) as [[L2 B1]|[[_ ?]|[L2 B1]]]; try done;
              pose proof (G4' Ht _ _ _ _ _ _ A1 B1 Hsa Hsb Hta Htb); lia.
      * destruct (winv_node h HI c nc H0) as (G1 & G2 & G3 & G4 & G5).
        split; [by eapply wext_ok_dyn|]. split; [by eapply wowner_ok_dyn|].
        split; [|split; [by eapply children_ok_dyn|by eapply name_ok_dyn]].
        intros q Hq. cbn in Hq. injection Hq as <-. split; [by eapply winv_lt|]. split; [done|].
        intros s Hs. rewrite (info_some _ _ _ H) in Hs. injection Hs as <-. split; [done|]. done.
  - (* remove *) by apply wremove_inv.
  - (* detach *) by apply wremove_inv.
  - (* clear *)
    apply (winv_same_info h); [done|done|by eapply info_upd|].
    + intros j m Hm. upd_cases Hm; [|by left]. right.
      destruct (winv_node h HI i n H) as (H1 & H2 & H3 & H4 & H5).
      split; [by eapply wext_ok_dyn|]. split; [by eapply wowner_ok_dyn|]. split; [eapply parent_ok_dyn; [done|by left|done]|].
      split; [|by eapply name_ok_dyn]. split; cbn; [done|]. intros _ j1 k1 a b sa sb Ha. by rewrite lookup_nil in Ha.
  - (* ext *)
    apply (winv_same_info h); [done|done|by eapply info_upd|].
    + intros j m Hm. upd_cases Hm; [|by left]. right.
      destruct (winv_node h HI i n H) as (H2 & H3 & H4 & H5 & H6).
      split; [done|]. split; [by eapply wowner_ok_dyn|]. split; [eapply parent_ok_dyn; [done|by left|done]|].
      split; [by eapply children_ok_dyn|by eapply name_ok_dyn].
  - (* unparent *)
    apply (winv_same_info h); [done|done|by eapply info_upd|].
    + intros j m Hm. upd_cases Hm; [|by left]. right.
      destruct (winv_node h HI i n H) as (H2 & H3 & H4 & H5 & H6).
      split; [by eapply wext_ok_dyn|]. split; [by eapply wowner_ok_dyn|]. split; [eapply parent_ok_dyn; [done|by right|done]|].
      split; [by eapply children_ok_dyn|by eapply name_ok_dyn].
  - (* drop *)
    assert (Hi : forall j s, info (dropped l h) j = Some s -> info h j = Some s).
    { intros j s Hs. apply info_inv in Hs as (n & Hn & <-). apply lookup_dropped in Hn as [_ Hn]. by apply info_some. }
    split.
    + intros i n [_ Hn]%lookup_dropped. by eapply (winv_lt h HI).
    + intros i n [Hil Hn]%lookup_dropped.
      apply (wnode_ok_mono (info h) _ (h_next h)); [|eauto|done|by apply winv_node].
      intros r s Hr Hs. destruct (H i n Hn) as [|Hall]; [done|]. rewrite Forall_forall in Hall.
      apply info_inv in Hs as (m & Hm & <-). apply info_some, lookup_dropped. split; [|done].
      apply Hall. by apply elem_of_list_In.
Qed.