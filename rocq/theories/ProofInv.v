(** * ProofInv: the state invariant, and the primitive steps every call is made of *)
From Coq Require Import Lia.
From Verif Require Import History SpecName ProofText ProofName.

(** ** Static information: never changes while a node is alive *)
Record sinfo := mkS { s_type : node_type; s_name : Name; s_owner : option id }.
Definition static (n : node) : sinfo := mkS (n_type n) (n_name n) (n_owner n).
Definition info (h : heap) (i : id) : option sinfo := static <$> h_nodes h !! i.

Definition can_be_child (t : node_type) : bool :=
  match t with NElement | NText | NComment | NProcessingInstruction | NCData | NEntityReference => true | _ => false end.

Definition named_type (t : node_type) : bool :=
  match t with
  | NElement | NAttribute | NProcessingInstruction | NEntityReference | NEntity | NNotation | NDocumentType => true
  | _ => false end.
(** A name made by [Name::from_str] or [Name::new_ns]. *)
Definition parsed_name (n : Name) : Prop := exists s, name_from_str s = Ok (mkName None (nm_prefix n) (nm_local n)).
Definition name_ok (n : node) : Prop :=
  match n_type n with
  | NText => n_name n = name_for_text
  | NCData => n_name n = name_for_cdata
  | NComment => n_name n = name_for_comment
  | NDocument => n_name n = name_for_document
  | NDocumentFragment => n_name n = name_for_document_fragment
  | NProcessingInstruction => parsed_name (n_name n) /\ ~ xml_target (name_to_string (n_name n))
  | _ => parsed_name (n_name n)
  end.

Section ok.
  Context (I : id -> option sinfo) (nx : nat).
  Definition ext_ok (n : node) : Prop :=
    match n_ext n with
    | XNone => match n_type n with
               | NText | NCData | NComment | NProcessingInstruction | NDocumentFragment | NEntityReference => True
               | _ => False end
    | XAttribute o => n_type n = NAttribute /\
        forall e, o = Some e -> (e < nx)%nat /\ forall s, I e = Some s -> s_type s = NElement
    | XDocument _ dt m _ => n_type n = NDocument /\
        (forall t, dt = Some t -> exists s, I t = Some s /\ s_type s = NDocumentType) /\
        (forall k e, In (k, e) m -> (e < nx)%nat /\ forall s, I e = Some s -> s_type s = NElement)
    | XDocumentType es ns _ _ _ => n_type n = NDocumentType /\ es = [] /\ ns = []
    | XElement attrs nss => n_type n = NElement /\ List.NoDup (map fst attrs) /\
        (forall k a, In (k, a) attrs ->
          exists s, I a = Some s /\ s_type s = NAttribute /\ s_name s = k /\ s_owner s = n_owner n) /\
        List.NoDup (map fst nss) /\ (forall k u, In (k, u) nss -> k = None \/ k = Some XMLNS_NS_ATTRIBUTE)
    | XEntity _ _ _ => n_type n = NEntity
    | XNotation _ _ => n_type n = NNotation
    end.
  Definition owner_ok (n : node) : Prop :=
    match n_type n with
    | NDocument | NDocumentType => n_owner n = None
    | _ => exists d, n_owner n = Some d /\ (d < nx)%nat /\ forall s, I d = Some s -> s_type s = NDocument
    end.
  (** [c] may stand under [p]. *)
  Definition link_ok (sp sc : sinfo) : Prop :=
    is_child_allowed (s_type sp) (s_type sc) = true /\ (s_type sp <> NDocument -> s_owner sc = s_owner sp).
  Definition parent_ok (n : node) : Prop :=
    forall p, n_parent n = Some p -> (p < nx)%nat /\ can_be_child (n_type n) = true /\
      forall s, I p = Some s -> link_ok s (static n) /\ (s_type s = NDocument -> n_owner n = Some p).
  Definition children_ok (i : id) (n : node) : Prop :=
    (forall c, In c (n_children n) -> c <> i /\ exists s, I c = Some s /\ link_ok (static n) s) /\
    (n_type n = NDocument -> forall j k a b sa sb,
       n_children n !! j = Some a -> n_children n !! k = Some b -> I a = Some sa -> I b = Some sb ->
       s_type sa = NElement -> s_type sb = NElement -> j = k).
  Definition node_ok (i : id) (n : node) : Prop :=
    ext_ok n /\ owner_ok n /\ parent_ok n /\ children_ok i n /\ name_ok n.
End ok.

Record Inv (h : heap) : Prop := {
  inv_lt : forall i n, h_nodes h !! i = Some n -> (i < h_next h)%nat;
  inv_node : forall i n, h_nodes h !! i = Some n -> node_ok (info h) (h_next h) i n;
  inv_parent : forall c nc p np, h_nodes h !! c = Some nc -> n_parent nc = Some p -> h_nodes h !! p = Some np ->
    n_type np <> NAttribute -> In c (n_children np) }.

Lemma inv_empty : Inv empty_heap.
Proof. split; cbn; intros *; by rewrite ?lookup_empty. Qed.

(** ** Stability of [node_ok] when other nodes appear or disappear *)
Lemma node_ok_mono (I I' : id -> option sinfo) nx nx' i n :
  (forall r s, In r (strong_refs n) -> I r = Some s -> I' r = Some s) ->
  (forall j s, I' j = Some s -> (j < nx)%nat -> I j = Some s) -> (nx <= nx')%nat ->
  node_ok I nx i n -> node_ok I' nx' i n.
Proof.
  intros HA HB HC (He & Ho & Hp & Hc & Hn).
  assert (HE : forall r, In r (ext_refs (n_ext n)) -> In r (strong_refs n)).
  { intros r Hr. unfold strong_refs. apply in_app_iff. by right. }
  assert (HCh : forall r, In r (n_children n) -> In r (strong_refs n)).
  { intros r Hr. unfold strong_refs. apply in_app_iff. by left. }
  split; [|split; [|split; [|split; [|done]]]].
  - unfold ext_ok in *. destruct (n_ext n) as [| o | d dt m op | es ns | attrs nss | |] eqn:Hx; try done.
    + destruct He as [Ht He]. split; [done|]. intros e Hoe. destruct (He e Hoe) as [Hlt Hs]. split; [lia|].
      intros s Hs'. eauto.
    + destruct He as (Ht & Hdt & Hm). split; [done|]. split.
      * intros t Ht'. destruct (Hdt t Ht') as (s & Hs & Hst). exists s. split; [|done]. apply HA; [|done].
        apply HE. subst. by left.
      * intros k e Hin. destruct (Hm k e Hin) as [Hlt Hs]. split; [lia|]. eauto.
    + destruct He as (Ht & Hnd & Ha & Hns). split; [done|]. split; [done|]. split; [|done]. intros k a Hin.
      destruct (Ha k a Hin) as (s & Hs & Hr). exists s. split; [|done]. apply HA; [|done]. apply HE. cbn.
      apply in_map_iff. by exists (k, a).
  - unfold owner_ok in *. destruct (n_type n); try done; destruct Ho as (d & Hd & Hlt & Hs); exists d;
      (split; [done|]); (split; [lia|]); eauto.
  - intros p Hpp. destruct (Hp p Hpp) as (Hlt & Hcb & Hs). split; [lia|]. split; [done|]. eauto.
  - destruct Hc as [Hc Hone]. split.
    + intros c Hin. destruct (Hc c Hin) as (Hne & s & Hs & Hl). split; [done|]. exists s. eauto.
    + intros Ht j k a b sa sb Ha Hb Hsa Hsb Hta Htb.
      destruct (Hc a) as (_ & sa' & Hsa' & _); [by eapply elem_of_list_In, elem_of_list_lookup_2|].
      destruct (Hc b) as (_ & sb' & Hsb' & _); [by eapply elem_of_list_In, elem_of_list_lookup_2|].
      assert (I' a = Some sa') by (apply HA; [apply HCh; by eapply elem_of_list_In, elem_of_list_lookup_2|done]).
      assert (I' b = Some sb') by (apply HA; [apply HCh; by eapply elem_of_list_In, elem_of_list_lookup_2|done]).
      simplify_eq. eauto.
Qed.
Lemma node_ok_ext (I I' : id -> option sinfo) nx i n : (forall j, I' j = I j) -> node_ok I nx i n -> node_ok I' nx i n.
Proof. intros H. apply node_ok_mono; [intros r s _ Hr; by rewrite H|intros j s Hj _; by rewrite <- H|done]. Qed.

(** ** Heap updates *)
Definition upd (i : id) (n : node) (h : heap) : heap := mkHeap (<[i := n]> (h_nodes h)) (h_next h).
Definition allocd (n : node) (h : heap) : heap := mkHeap (<[h_next h := n]> (h_nodes h)) (S (h_next h)).
Definition dropped (l : list id) (h : heap) : heap := mkHeap (foldr delete (h_nodes h) l) (h_next h).

Lemma info_upd i n m h : h_nodes h !! i = Some m -> static n = static m -> forall j, info (upd i n h) j = info h j.
Proof.
  intros H Hs j. unfold info, upd. cbn. destruct (decide (j = i)) as [->|Hj].
  - rewrite lookup_insert, H. cbn. by rewrite Hs.
  - by rewrite lookup_insert_ne.
Qed.
Lemma info_some h i n : h_nodes h !! i = Some n -> info h i = Some (static n).
Proof. unfold info. by intros ->. Qed.
Lemma info_inv h i s : info h i = Some s -> exists n, h_nodes h !! i = Some n /\ static n = s.
Proof. unfold info. destruct (h_nodes h !! i) as [n|]; [|done]. cbn. intros [= <-]. by exists n. Qed.
Lemma lookup_dropped l h i n : h_nodes (dropped l h) !! i = Some n <-> i ∉ l /\ h_nodes h !! i = Some n.
Proof.
  unfold dropped. cbn [h_nodes]. induction l as [|x l IH]; cbn [foldr].
  - split; [intros H; split; [apply not_elem_of_nil|done]|by intros [_ H]].
  - rewrite lookup_delete_Some, IH, not_elem_of_cons. naive_solver.
Qed.

(** ** Primitive steps *)
Inductive ext_change : extension -> extension -> Prop :=
| ec_owner o o' : ext_change (XAttribute o) (XAttribute o')
| ec_attr_add a ns k i : ext_change (XElement a ns) (XElement (hm_insert k i a) ns)
| ec_attr_del a ns k : ext_change (XElement a ns) (XElement (hm_remove k a) ns)
| ec_ns a ns k u : ext_change (XElement a ns) (XElement a (hm_insert k u ns))
| ec_id d dt m o k e : hm_get k m = None -> ext_change (XDocument d dt m o) (XDocument d dt (hm_insert k e m) o)
| ec_decl d d' dt m o : ext_change (XDocument d dt m o) (XDocument (Some d') dt m o).

Inductive lab :=
| LAlloc (n : node) | LValue (i : id) | LAttach (p c : id) (leaf : bool) | LRemove (p : id) (t : node_type) (c : id) | LDetach (p c : id)
| LClear (i : id) | LExt (i : id) (x x' : extension) | LUnparent (i : id) (t : node_type) | LDrop (l : list id).

Inductive prim : lab -> heap -> heap -> Prop :=
| pr_alloc h n : node_ok (info h) (h_next h) (h_next h) n -> n_parent n = None -> prim (LAlloc n) h (allocd n h)
| pr_value h i n v : h_nodes h !! i = Some n -> prim (LValue i) h (upd i (set_value v n) h)
| pr_attach h p c np nc k :
    h_nodes h !! p = Some np -> h_nodes h !! c = Some nc -> p <> c -> can_be_child (n_type nc) = true ->
    link_ok (static np) (static nc) -> (n_type np = NDocument -> n_owner nc = Some p) ->
    (n_type np = NDocument -> n_type nc = NElement ->
       forall x s, In x (n_children np) -> info h x = Some s -> s_type s <> NElement) ->
    upgrade h (n_parent nc) = None -> (k <= length (n_children np))%nat ->
    prim (LAttach p c (is_nil (n_children nc))) h
      (upd p (set_children (take k (n_children np) ++ c :: drop k (n_children np)) np) (upd c (set_parent (Some p) nc) h))
| pr_remove h p c np nc k :
    h_nodes h !! p = Some np -> h_nodes h !! c = Some nc -> position c (n_children np) = Some k ->
    prim (LRemove p (n_type np) c) h (upd c (set_parent None nc) (upd p (set_children (delete k (n_children np)) np) h))
| pr_detach h p c np nc k :
    h_nodes h !! p = Some np -> h_nodes h !! c = Some nc -> position c (n_children np) = Some k ->
    n_parent nc = Some p ->
    prim (LDetach p c) h (upd c (set_parent None nc) (upd p (set_children (delete k (n_children np)) np) h))
| pr_clear h i n : h_nodes h !! i = Some n -> n_type n = NAttribute -> prim (LClear i) h (upd i (set_children [] n) h)
| pr_ext h i n x : h_nodes h !! i = Some n -> ext_change (n_ext n) x ->
    ext_ok (info h) (h_next h) (set_ext x n) -> prim (LExt i (n_ext n) x) h (upd i (set_ext x n) h)
| pr_unparent h i n : h_nodes h !! i = Some n -> prim (LUnparent i (n_type n)) h (upd i (set_parent None n) h)
| pr_drop h l : can_drop h l -> prim (LDrop l) h (dropped l h).

(** ** Lists *)
Lemma position_lookup x l k : position x l = Some k -> l !! k = Some x /\ forall j, (j < k)%nat -> l !! j <> Some x.
Proof.
  revert k. induction l as [|y l IH]; intros k H; cbn in H; [done|].
  destruct (decide (y = x)) as [->|Hy].
  - rewrite bool_decide_true in H by done. injection H as <-. split; [done|lia].
  - rewrite bool_decide_false in H by done. destruct (position x l) as [j|]; [|done]. injection H as <-.
    destruct (IH j eq_refl) as [H1 H2]. split; [done|]. intros [|m] Hm; cbn; [by intros [= ->]|]. apply H2. lia.
Qed.
Lemma position_none x l : position x l = None <-> ~ In x l.
Proof.
  induction l as [|y l IH]; cbn; [tauto|]. destruct (decide (y = x)) as [->|Hy].
  - rewrite bool_decide_true by done. split; [done|]. tauto.
  - rewrite bool_decide_false by done. destruct (position x l); cbn; intuition congruence.
Qed.
Lemma position_some x l : In x l -> exists k, position x l = Some k.
Proof. intros H. destruct (position x l) as [k|] eqn:E; [eauto|]. by apply position_none in E. Qed.
Lemma lookup_delete_list {A} k (l : list A) j : delete k l !! j = if decide (j < k)%nat then l !! j else l !! S j.
Proof.
  destruct (decide (j < k)%nat); [by apply lookup_delete_lt|]. apply lookup_delete_ge. lia.
Qed.
Lemma In_delete {A} (x : A) k l : In x (delete k l) -> In x l.
Proof.
  rewrite <- !elem_of_list_In. intros [j H]%elem_of_list_lookup_1. rewrite lookup_delete_list in H.
  destruct (decide (j < k)%nat); by eapply elem_of_list_lookup_2.
Qed.
Lemma In_delete_ne {A} (x y : A) k l : In x l -> l !! k = Some y -> x <> y -> In x (delete k l).
Proof.
  rewrite <- !elem_of_list_In. intros H Hk Hne. rewrite delete_take_drop.
  rewrite <- (take_drop_middle l k y Hk) in H. apply elem_of_app in H as [H|H]; [by apply elem_of_app; left|].
  apply elem_of_cons in H as [H|H]; [by subst|]. by apply elem_of_app; right.
Qed.
Lemma In_insert {A} (x c : A) k l : In x (take k l ++ c :: drop k l) <-> x = c \/ In x l.
Proof.
  rewrite <- !elem_of_list_In, elem_of_app, elem_of_cons. rewrite <- (take_drop k l) at 3. rewrite elem_of_app. tauto.
Qed.
Lemma lookup_insert_list {A} (c : A) k l j x : (k <= length l)%nat -> (take k l ++ c :: drop k l) !! j = Some x ->
  (j < k)%nat /\ l !! j = Some x \/ j = k /\ x = c \/ (k < j)%nat /\ l !! (j - 1)%nat = Some x.
Proof.
  intros Hk H. destruct (lt_eq_lt_dec j k) as [[Hj| ->]|Hj].
  - left. split; [done|]. rewrite lookup_app_l in H by (rewrite take_length; lia). by rewrite lookup_take in H.
  - right. left. split; [done|]. rewrite lookup_app_r in H by (rewrite take_length; lia).
    rewrite take_length, Nat.min_l in H by lia. rewrite Nat.sub_diag in H. cbn in H. congruence.
  - right. right. split; [done|]. rewrite lookup_app_r in H by (rewrite take_length; lia).
    rewrite take_length, Nat.min_l in H by lia. replace (j - k)%nat with (S (j - k - 1)) in H by lia.
    change (drop k l !! (j - k - 1)%nat = Some x) in H. rewrite lookup_drop in H. by replace (j - 1)%nat with (k + (j - k - 1))%nat by lia.
Qed.
(** ** Each primitive step keeps the invariant *)
Lemma inv_same_info h h' :
  Inv h -> h_next h' = h_next h -> (forall j, info h' j = info h j) ->
  (forall i n', h_nodes h' !! i = Some n' -> h_nodes h !! i = Some n' \/ node_ok (info h) (h_next h) i n') ->
  (forall c nc p np, h_nodes h' !! c = Some nc -> n_parent nc = Some p -> h_nodes h' !! p = Some np ->
    n_type np <> NAttribute -> In c (n_children np)) ->
  Inv h'.
Proof.
  intros HI Hx Hinfo Hn Hp. split; [|intros i n' H'|done].
  - intros i n H. rewrite Hx. specialize (Hinfo i). rewrite (info_some _ _ _ H) in Hinfo. symmetry in Hinfo.
    apply info_inv in Hinfo as (m & Hm & _). by eapply inv_lt.
  - rewrite Hx. apply (node_ok_ext (info h)); [done|]. destruct (Hn i n' H') as [H|H]; [by apply inv_node|done].
Qed.

Lemma ext_ok_dyn I nx n n' : n_ext n' = n_ext n -> static n' = static n -> ext_ok I nx n -> ext_ok I nx n'.
Proof.
  intros Hx Hs. injection Hs as Ht _ Ho. unfold ext_ok. rewrite Hx, Ht.
  by destruct (n_ext n); rewrite ?Ho.
Qed.
Lemma owner_ok_dyn I nx n n' : static n' = static n -> owner_ok I nx n -> owner_ok I nx n'.
Proof. intros Hs. injection Hs as Ht _ Ho. unfold owner_ok. by rewrite Ht, Ho. Qed.
Lemma name_ok_dyn n n' : static n' = static n -> name_ok n -> name_ok n'.
Proof. intros Hs. injection Hs as Ht Hn _. unfold name_ok. by rewrite Ht, Hn. Qed.
Lemma parent_ok_dyn I nx n n' : static n' = static n -> n_parent n' = n_parent n \/ n_parent n' = None ->
  parent_ok I nx n -> parent_ok I nx n'.
Proof.
  intros Hs Hp H p Hpp. injection Hs as Ht Hnm Ho. destruct Hp as [Hp|Hp]; [|congruence].
  rewrite Hp in Hpp. destruct (H p Hpp) as (H1 & H2 & H3). rewrite Ht. split; [done|]. split; [done|].
  intros s Hs. destruct (H3 s Hs) as [H4 H5]. unfold static. by rewrite Ht, Hnm, Ho.
Qed.
Lemma children_ok_dyn I i n n' : static n' = static n -> n_children n' = n_children n ->
  children_ok I i n -> children_ok I i n'.
Proof. intros Hs Hc [H1 H2]. injection Hs as Ht Hnm Ho. unfold children_ok, static. rewrite Ht, Hnm, Ho, Hc. done. Qed.

Ltac upd_cases H :=
  unfold upd in H; cbn [h_nodes] in H; apply lookup_insert_Some in H as [[<- <-]|[? H]].

Lemma remove_inv h p c np nc k :
  h_nodes h !! p = Some np -> h_nodes h !! c = Some nc -> position c (n_children np) = Some k -> Inv h ->
  Inv (upd c (set_parent None nc) (upd p (set_children (delete k (n_children np)) np) h)).
Proof.
  intros Hp Hc Hk HI. apply position_lookup in Hk as [Hk Hfirst].
  assert (Hin : In c (n_children np)) by (by eapply elem_of_list_In, elem_of_list_lookup_2).
  destruct (inv_node h HI p np Hp) as (G1 & G2 & G3 & [G4 G4'] & G5).
  assert (Hpc : p <> c) by (destruct (G4 c Hin); congruence).
  assert (Hinfo : forall j, info (upd c (set_parent None nc) (upd p (set_children (delete k (n_children np)) np) h)) j = info h j).
  { intros j. rewrite (info_upd c _ nc); [by apply (info_upd p _ np)| |done]. cbn. by rewrite lookup_insert_ne by congruence. }
  apply (inv_same_info h); [done|done|done| |].
  - intros j m Hm. upd_cases Hm; [|upd_cases Hm; [|by left]]; right.
    + destruct (inv_node h HI c nc Hc) as (F1 & F2 & F3 & F4 & F5).
      split; [by eapply ext_ok_dyn|]. split; [by eapply owner_ok_dyn|].
      split; [eapply parent_ok_dyn; [done|by right|done]|]. split; [by eapply children_ok_dyn|by eapply name_ok_dyn].
    + split; [by eapply ext_ok_dyn|]. split; [by eapply owner_ok_dyn|]. split; [eapply parent_ok_dyn; [done|by left|done]|].
      split; [|by eapply name_ok_dyn]. split; cbn [n_children set_children n_type].
      * intros x Hx%In_delete. by apply G4.
      * intros Ht j1 k1 a b sa sb Ha Hb Hsa Hsb Hta Htb. rewrite lookup_delete_list in Ha, Hb.
        destruct (decide (j1 < k)%nat), (decide (k1 < k)%nat);
          pose proof (G4' Ht _ _ _ _ _ _ Ha Hb Hsa Hsb Hta Htb); lia.
  - intros x nx q nq Hx Hxp Hq Ht. upd_cases Hx; [done|].
    assert (G : forall q nq, h_nodes h !! q = Some nq -> n_type nq <> NAttribute -> n_parent nx = Some q ->
      In x (n_children nq)).
    { intros q' nq' Hq' Ht' Hx'. upd_cases Hx; cbn in *; by eapply (inv_parent h HI). }
    upd_cases Hq; [cbn; eauto|]. upd_cases Hq; [|cbn; eauto]. cbn. eapply In_delete_ne; eauto.
Qed.

Lemma prim_inv l h h' : prim l h h' -> Inv h -> Inv h'.
Proof.
  intros Hp HI. destruct Hp.
  - (* alloc *)
    assert (Hfresh : h_nodes h !! h_next h = None).
    { destruct (h_nodes h !! h_next h) eqn:E; [|done]. apply (inv_lt h HI) in E. lia. }
    assert (Hi : forall j s, info h j = Some s -> info (allocd n h) j = Some s).
    { intros j s Hj. unfold info, allocd in *. cbn. rewrite lookup_insert_ne; [done|]. intros <-. by rewrite Hfresh in Hj. }
    assert (Hi' : forall j s, info (allocd n h) j = Some s -> (j < h_next h)%nat -> info h j = Some s).
    { intros j s Hj Hlt. unfold info, allocd in *. cbn in Hj. rewrite lookup_insert_ne in Hj by lia. done. }
    split.
    + intros i m Hm. unfold allocd in *. cbn in *. apply lookup_insert_Some in Hm as [[<- _]|[_ Hm]]; [lia|].
      apply (inv_lt h HI) in Hm. lia.
    + intros i m Hm. apply (node_ok_mono (info h) _ (h_next h)); [eauto|done|cbn; lia|].
      unfold allocd in Hm. cbn in Hm. apply lookup_insert_Some in Hm as [[<- <-]|[_ Hm]]; [done|]. by apply inv_node.
    + intros c nc p np Hc Hpc Hpp Ht. unfold allocd in Hc, Hpp. cbn in Hc, Hpp.
      apply lookup_insert_Some in Hc as [[<- <-]|[Hne Hc]]; [congruence|].
      apply lookup_insert_Some in Hpp as [[<- <-]|[Hne' Hpp]].
      * destruct (inv_node h HI c nc Hc) as (_ & _ & Hpar & _). destruct (Hpar _ Hpc) as [? _]. lia.
      * by eapply inv_parent.
  - (* value *)
    apply (inv_same_info h); [done|done|by eapply info_upd| |].
    + intros j m Hm. upd_cases Hm; [|by left]. right.
      destruct (inv_node h HI i n H) as (H1 & H2 & H3 & H4 & H5).
      split; [by eapply ext_ok_dyn|]. split; [by eapply owner_ok_dyn|]. split; [eapply parent_ok_dyn; [done|by left|done]|].
      split; [by eapply children_ok_dyn|by eapply name_ok_dyn].
    + intros c nc p np Hc Hpc Hpp Ht. upd_cases Hc; upd_cases Hpp; cbn in *; by eapply (inv_parent h HI).
  - (* attach *)
    assert (Hinfo : forall j, info (upd p (set_children (take k (n_children np) ++ c :: drop k (n_children np)) np)
                                (upd c (set_parent (Some p) nc) h)) j = info h j).
    { intros j. rewrite (info_upd p _ np); [by apply (info_upd c _ nc)| |done]. cbn. by rewrite lookup_insert_ne by congruence. }
    apply (inv_same_info h); [done|done|done| |].
    + intros j m Hm. upd_cases Hm; [|upd_cases Hm; [|by left]]; right.
      * destruct (inv_node h HI p np H) as (G1 & G2 & G3 & [G4 G4'] & G5).
        split; [by eapply ext_ok_dyn|]. split; [by eapply owner_ok_dyn|]. split; [eapply parent_ok_dyn; [done|by left|done]|].
        split; [|by eapply name_ok_dyn]. split; cbn [n_children set_children n_type].
        -- intros x Hx. apply In_insert in Hx as [->|Hx]; [|by apply G4]. split; [done|].
           exists (static nc). split; [by apply info_some|done].
        -- intros Ht j1 k1 a b sa sb Ha Hb Hsa Hsb Hta Htb.
           destruct (decide (n_type nc = NElement)) as [Hel|Hel].
           ++ assert (G : forall j x s, (take k (n_children np) ++ c :: drop k (n_children np)) !! j = Some x ->
                info h x = Some s -> s_type s = NElement -> j = k).
              { intros j x s Hj Hs Hst. destruct (lookup_insert_list c k _ j x H7 Hj) as [[_ Hl]|[[-> _]|[_ Hl]]]; [|done|];
                  exfalso; eapply H5; try done; by eapply elem_of_list_In, elem_of_list_lookup_2. }
              rewrite (G _ _ _ Ha Hsa Hta), (G _ _ _ Hb Hsb Htb). done.
           ++ assert (Hca : a <> c) by (intros ->; rewrite (info_some _ _ _ H0) in Hsa; injection Hsa as <-; done).
              assert (Hcb : b <> c) by (intros ->; rewrite (info_some _ _ _ H0) in Hsb; injection Hsb as <-; done).
              destruct (lookup_insert_list c k _ _ _ H7 Ha) as [[L1 A1]|[[_ ?]|[L1 A1]]]; [|done|];
              destruct (lookup_insert_list c k _ _ _ H7 Hb) as [[L2 B1]|[[_ ?]|[L2 B1]]]; try done;
              pose proof (G4' Ht _ _ _ _ _ _ A1 B1 Hsa Hsb Hta Htb); lia.
      * destruct (inv_node h HI c nc H0) as (G1 & G2 & G3 & G4 & G5).
        split; [by eapply ext_ok_dyn|]. split; [by eapply owner_ok_dyn|].
        split; [|split; [by eapply children_ok_dyn|by eapply name_ok_dyn]].
        intros q Hq. cbn in Hq. injection Hq as <-. split; [by eapply inv_lt|]. split; [done|].
        intros s Hs. rewrite (info_some _ _ _ H) in Hs. injection Hs as <-. split; [done|]. done.
    + intros x nx q nq Hx Hxp Hq Ht.
      upd_cases Hx.
      * cbn in Hxp. upd_cases Hq.
        -- destruct (inv_node h HI p np H) as (_ & _ & G3 & _). cbn. apply In_insert. right. by eapply (inv_parent h HI).
        -- upd_cases Hq; cbn; by eapply (inv_parent h HI).
      * upd_cases Hx.
        -- cbn in Hxp. injection Hxp as <-. unfold upd in Hq. cbn [h_nodes] in Hq. rewrite lookup_insert in Hq.
           injection Hq as <-. cbn. apply In_insert. by left.
        -- upd_cases Hq.
           ++ cbn. apply In_insert. right. by eapply (inv_parent h HI).
           ++ upd_cases Hq; cbn; by eapply (inv_parent h HI).
  - (* remove *) by apply remove_inv.
  - (* detach *) by apply remove_inv.
  - (* clear *)
    apply (inv_same_info h); [done|done|by eapply info_upd| |].
    + intros j m Hm. upd_cases Hm; [|by left]. right.
      destruct (inv_node h HI i n H) as (H1 & H2 & H3 & H4 & H5).
      split; [by eapply ext_ok_dyn|]. split; [by eapply owner_ok_dyn|]. split; [eapply parent_ok_dyn; [done|by left|done]|].
      split; [|by eapply name_ok_dyn]. split; cbn; [done|]. intros Ht. congruence.
    + intros c nc p np Hc Hpc Hpp Ht. upd_cases Hpp; [cbn in *; congruence|]. upd_cases Hc; cbn in *; by eapply (inv_parent h HI).
  - (* ext *)
    apply (inv_same_info h); [done|done|by eapply info_upd| |].
    + intros j m Hm. upd_cases Hm; [|by left]. right.
      destruct (inv_node h HI i n H) as (H2 & H3 & H4 & H5 & H6).
      split; [done|]. split; [by eapply owner_ok_dyn|]. split; [eapply parent_ok_dyn; [done|by left|done]|].
      split; [by eapply children_ok_dyn|by eapply name_ok_dyn].
    + intros c nc p np Hc Hpc Hpp Ht. upd_cases Hc; upd_cases Hpp; cbn in *; by eapply (inv_parent h HI).
  - (* unparent *)
    apply (inv_same_info h); [done|done|by eapply info_upd| |].
    + intros j m Hm. upd_cases Hm; [|by left]. right.
      destruct (inv_node h HI i n H) as (H2 & H3 & H4 & H5 & H6).
      split; [by eapply ext_ok_dyn|]. split; [by eapply owner_ok_dyn|]. split; [eapply parent_ok_dyn; [done|by right|done]|].
      split; [by eapply children_ok_dyn|by eapply name_ok_dyn].
    + intros c nc p np Hc Hpc Hpp Ht. upd_cases Hc; [done|]. upd_cases Hpp; cbn in *; by eapply (inv_parent h HI).
  - (* drop *)
    assert (Hi : forall j s, info (dropped l h) j = Some s -> info h j = Some s).
    { intros j s Hs. apply info_inv in Hs as (n & Hn & <-). apply lookup_dropped in Hn as [_ Hn]. by apply info_some. }
    split.
    + intros i n [_ Hn]%lookup_dropped. by eapply (inv_lt h HI).
    + intros i n [Hil Hn]%lookup_dropped.
      apply (node_ok_mono (info h) _ (h_next h)); [|eauto|done|by apply inv_node].
      intros r s Hr Hs. destruct (H i n Hn) as [|Hall]; [done|]. rewrite Forall_forall in Hall.
      apply info_inv in Hs as (m & Hm & <-). apply info_some, lookup_dropped. split; [|done].
      apply Hall. by apply elem_of_list_In.
    + intros c nc p np [_ Hc]%lookup_dropped Hpc [_ Hpp]%lookup_dropped Ht. by eapply (inv_parent h HI).
Qed.
