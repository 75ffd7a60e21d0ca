(** * ProofParse: what each handler of the parser does to the heap *)
From Coq Require Import Lia.
From Verif Require Import SpecParse ProofAttr ProofName ProofSteps PropName PropText ProofShow ProofInv ProofElem ProofInsert PropFactory ProofOps.

#[local] Opaque attr_value.

(** ** Induction on items *)
Lemma pnode_ind' (P : pnode -> Prop) :
  (forall n l kids, Forall P kids -> P (PElement n l kids)) -> (forall n l, P (PEmptyElement n l)) ->
  (forall s, P (PText s)) -> (forall s, P (PCData s)) -> (forall s, P (PComment s)) -> (forall s, P (PPi s)) ->
  forall x, P x.
Proof.
  intros H1 H2 H3 H4 H5 H6. fix IH 1. intros [n l kids|n l|s|s|s|s].
  - apply H1. induction kids as [|k kids IHk]; constructor; [apply IH|apply IHk].
  - apply H2.
  - apply H3.
  - apply H4.
  - apply H5.
  - apply H6.
Qed.

(** ** What is read does not change when nodes are added elsewhere *)
Section mono.
  Context (E : env) (look look' : id -> option node) (reg reg' : str -> id -> Prop) (d : id).
  Hypothesis Hl : forall i n, look i = Some n -> look' i = Some n.
  Hypothesis Hg : forall w e, reg w e -> reg' w e.
  Lemma holds_attr_mono e ka p : holds_attr E look reg d e ka p -> holds_attr E look' reg' d e ka p.
  Proof.
    intros (H1 & (t & H2 & H3) & H4). split; [done|]. split; [exists t; split; by apply Hl|].
    intros H. destruct (H4 H) as (w & H5 & H6). exists w. split; [done|]. by apply Hg.
  Qed.
  Lemma holds_attrs_mono e al l : Forall2 (holds_attr E look reg d e) al l -> Forall2 (holds_attr E look' reg' d e) al l.
  Proof. induction 1; constructor; [by apply holds_attr_mono|done]. Qed.
  Lemma holds_mono : forall x q i, holds E look reg d q i x -> holds E look' reg' d q i x.
  Proof.
    apply (pnode_ind' (fun x => forall q i, holds E look reg d q i x -> holds E look' reg' d q i x)); intros.
    - inversion H0; subst. econstructor; [done|by apply Hl|by apply holds_attrs_mono|].
      match goal with X : Forall2 (holds _ _ _ _ _) _ _ |- _ => rename X into Hc end. clear - H Hc. induction Hc; [constructor|]. apply Forall_cons in H as [H1 H2]. constructor; [by apply H1|by apply IHHc].
    - inversion H; subst. econstructor; [done|by apply Hl|by apply holds_attrs_mono].
    - inversion H; subst. constructor. by apply Hl.
    - inversion H; subst. constructor. by apply Hl.
    - inversion H; subst. constructor. by apply Hl.
    - inversion H; subst. econstructor; [done..|]. by apply Hl.
  Qed.
  Lemma holds_all_mono q cs kids : Forall2 (holds E look reg d q) cs kids -> Forall2 (holds E look' reg' d q) cs kids.
  Proof. induction 1; constructor; [by apply holds_mono|done]. Qed.
End mono.

(** ** Heaps that grow below [p] in the document [d] *)
Definition grow_kids (l : list id) (n : node) : node := set_children (n_children n ++ l) n.
Definition grow_ids (more : list (str * id)) (n : node) : node :=
  match n_ext n with XDocument decl dt m o => set_ext (XDocument decl dt (m ++ more) o) n | _ => n end.
Definition changed (d p : id) (new : list id) (more : list (str * id)) (i : id) (n : node) : node :=
  let n := if decide (i = d) then grow_ids more n else n in
  if decide (i = p) then grow_kids new n else n.
Definition into (d p : id) (new : list id) (more : list (str * id)) (h h' : heap) : Prop :=
  (h_next h <= h_next h')%nat /\
  forall i, (i < h_next h)%nat -> h_nodes h' !! i = changed d p new more i <$> h_nodes h !! i.

Lemma grow_kids_nil n : grow_kids [] n = n.
Proof. destruct n. unfold grow_kids, set_children. cbn. by rewrite app_nil_r. Qed.
Lemma grow_ids_nil n : grow_ids [] n = n.
Proof. destruct n as [ty nm v0 pa ow ch x]. unfold grow_ids, set_ext. cbn. destruct x; try done. by rewrite app_nil_r. Qed.
Lemma grow_kids_app l1 l2 n : grow_kids l2 (grow_kids l1 n) = grow_kids (l1 ++ l2) n.
Proof. destruct n. unfold grow_kids, set_children. cbn. by rewrite app_assoc. Qed.
Lemma grow_ids_app m1 m2 n : grow_ids m2 (grow_ids m1 n) = grow_ids (m1 ++ m2) n.
Proof. destruct n as [ty nm v0 pa ow ch x]. unfold grow_ids, set_ext. cbn. destruct x; try done. cbn. by rewrite app_assoc. Qed.
Lemma grow_swap l m n : grow_ids m (grow_kids l n) = grow_kids l (grow_ids m n).
Proof. destruct n as [ty nm v0 pa ow ch x]. unfold grow_ids, grow_kids, set_ext, set_children. cbn. by destruct x. Qed.
Lemma changed_nil d p i n : changed d p [] [] i n = n.
Proof. unfold changed. repeat case_decide; by rewrite ?grow_ids_nil, ?grow_kids_nil. Qed.
Lemma changed_app d p l1 l2 m1 m2 i n :
  changed d p l2 m2 i (changed d p l1 m1 i n) = changed d p (l1 ++ l2) (m1 ++ m2) i n.
Proof. unfold changed. repeat case_decide; by rewrite ?grow_swap, ?grow_ids_app, ?grow_kids_app. Qed.
Lemma into_refl d p h : into d p [] [] h h.
Proof. split; [done|]. intros i _. destruct (h_nodes h !! i); cbn; by rewrite ?changed_nil. Qed.
Lemma into_trans d p l1 l2 m1 m2 h h1 h2 : into d p l1 m1 h h1 -> into d p l2 m2 h1 h2 -> into d p (l1 ++ l2) (m1 ++ m2) h h2.
Proof.
  intros [H1 H2] [H3 H4]. split; [lia|]. intros i Hi. rewrite H4, H2 by lia. destruct (h_nodes h !! i); cbn; by rewrite ?changed_app.
Qed.
(** What is done below a node made on the way does not show outside. *)
Lemma into_below d p e l1 l2 m1 m2 h h1 h2 : (h_next h <= e)%nat -> into d p l1 m1 h h1 -> into d e l2 m2 h1 h2 -> into d p l1 (m1 ++ m2) h h2.
Proof.
  intros He [H1 H2] [H3 H4]. split; [lia|]. intros i Hi. rewrite H4, H2 by lia. destruct (h_nodes h !! i); cbn; [|done]. f_equal.
  unfold changed. rewrite (decide_False (P := i = e)) by lia. repeat case_decide; by rewrite ?grow_swap, ?grow_ids_app.
Qed.
Lemma into_at d p l m h h' i n : into d p l m h h' -> (i < h_next h)%nat -> h_nodes h !! i = Some n ->
  h_nodes h' !! i = Some (changed d p l m i n).
Proof. intros [_ H] Hi Hn. rewrite H by done. by rewrite Hn. Qed.
Lemma changed_type d p l m i n : n_type (changed d p l m i n) = n_type n.
Proof. unfold changed, grow_kids, grow_ids, set_children, set_ext. repeat case_decide; destruct n as [ty nm v0 pa ow ch x]; destruct x; done. Qed.
Lemma changed_owner d p l m i n : n_owner (changed d p l m i n) = n_owner n.
Proof. unfold changed, grow_kids, grow_ids, set_children, set_ext. repeat case_decide; destruct n as [ty nm v0 pa ow ch x]; destruct x; done. Qed.

(** The document being filled: alive, not of the kind that takes every [id] for an id. *)
Definition filling (h : heap) (d : id) (m : list (str * id)) : Prop :=
  (d < h_next h)%nat /\ exists l decl o, h_nodes h !! d = Some (mkNode NDocument name_for_document None None None l (XDocument decl None m o)) /\ has_assume_ids o = false.
Lemma filling_into h h' d m p l more : filling h d m -> into d p l more h h' -> filling h' d (m ++ more).
Proof.
  intros (Hd & k & decl & o & Hn & Ho) Hi. destruct Hi as [H1 H2]. split; [lia|]. rewrite H2, Hn by done. cbn.
  unfold changed. rewrite (decide_True (P := d = d)) by done. case_decide; do 3 eexists; split; [reflexivity|done|reflexivity|done].
Qed.

(** ** Appending a new node *)
Definition fresh_child (d : id) (n : node) : Prop :=
  n_parent n = None /\ n_owner n = Some d /\ n_children n = [].
Definition can_take (h : heap) (d p : id) (t : node_type) : Prop :=
  exists np, h_nodes h !! p = Some np /\ (p < h_next h)%nat /\ is_child_allowed (n_type np) t = true /\
    (n_type np = NDocument /\ p = d \/ n_type np <> NDocument /\ n_owner np = Some d) /\
    (n_type np = NDocument -> t = NElement -> any_element h (n_children np) = Ok false /\ Forall (fun x => (x < h_next h)%nat) (n_children np)).

Lemma any_element_ext h h' l b : Forall (fun i => h_nodes h' !! i = h_nodes h !! i) l -> any_element h l = Ok b -> any_element h' l = Ok b.
Proof.
  induction l as [|x l IH]; [done|]. intros [He Hl]%Forall_cons. cbn. unfold get_node. rewrite He. destruct (h_nodes h !! x) as [n|] eqn:Hx; [|done]. cbn.
  destruct (is_type NElement n); [done|]. by apply IH.
Qed.
Lemma bind_eq {A B} (m : M A) a h1 (k : A -> M B) h : m h = (h1, Ok a) -> bind m k h = k a h1.
Proof. unfold bind. by intros ->. Qed.
Lemma append_fresh h d p n m : filling h d m ->
  can_take h d p (n_type n) -> fresh_child d n ->
  exists h', append_child p (h_next h) (allocd n h) = (h', Ok (h_next h)) /\ into d p [h_next h] [] h h' /\
    h_next h' = S (h_next h) /\ h_nodes h' !! h_next h = Some (set_parent (Some p) n).
Proof.
  intros (Hd & l & decl & o & Hnd & Ho) (np & Hp & Hlt & Hal & Hpd & Hany) (Hn1 & Hn2 & Hn3).
  set (c := h_next h) in *. assert (Hpc : p <> c) by lia. assert (Hdc : d <> c) by lia.
  assert (Hp1 : h_nodes (allocd n h) !! p = Some np) by (unfold allocd; cbn; by rewrite lookup_insert_ne).
  assert (Hd1 : exists nd, h_nodes (allocd n h) !! d = Some nd) by (unfold allocd; cbn; rewrite lookup_insert_ne by done; eauto).
  assert (Hc1 : h_nodes (allocd n h) !! c = Some n) by (unfold allocd; cbn; by rewrite lookup_insert).
  destruct (child_type_docs _ _ Hal) as (Ht1 & Ht2 & Ht3 & Ht4).
  exists (upd p (grow_kids [c] np) (upd c (set_parent (Some p) n) (allocd n h))). split.
  - unfold append_child, insert_before. rewrite (bind_node _ np), (bind_node _ n) by done. rewrite Hal. cbn [negb].
    rewrite (bind_eq _ false (allocd n h)).
    2:{ destruct (is_type NDocument np && is_type NElement n) eqn:Hb; [|done]. apply andb_true_iff in Hb as [Hb1%is_type_true Hb2%is_type_true].
        destruct (Hany Hb1 Hb2) as [Ha1 Ha2]. unfold lift. rewrite (any_element_ext h _ _ false); [done| |done].
        eapply Forall_impl; [exact Ha2|]. cbn. intros i Hi. rewrite lookup_insert_ne; [done|]. unfold c. lia. }
    rewrite bind_ret. rewrite (bind_read _ tt).
    2:{ unfold check_same_document. rewrite (get_node_some _ _ _ Hp1), (get_node_some _ _ _ Hc1). cbn [rbind]. rewrite Hn2.
        assert (Hup : upgrade (allocd n h) (Some d) = Some d) by (by apply upgrade_some).
        destruct Hpd as [[Hq ->]|[Hq Hq2]].
        - apply is_type_true in Hq. rewrite Hq, Hup. cbn [unwrap_opt rbind]. by rewrite bool_decide_true.
        - apply is_type_false in Hq. rewrite Hq, Hq2, Hup. cbn [unwrap_opt rbind]. by rewrite bool_decide_true. }
    rewrite (bind_read _ None).
    2:{ rewrite (parent_node_eq _ _ _ Hc1 Ht3). by rewrite Hn1. }
    rewrite bind_ret. rewrite bool_decide_false by done. rewrite (bind_modifyM _ _ n) by done.
    assert (Hfr2 : is_type NDocumentFragment n = false) by (by apply is_type_false). rewrite Hfr2. unfold insert_or_append.
    assert (Hset : set_owner (if is_type NDocument np then Some p else n_owner np) (set_parent (Some p) n) = set_parent (Some p) n).
    { destruct n. cbn in *. subst. unfold set_owner, set_parent. cbn. f_equal. destruct Hpd as [[Hq ->]|[Hq Hq2]].
      - apply is_type_true in Hq. by rewrite Hq.
      - apply is_type_false in Hq. by rewrite Hq, Hq2. }
    rewrite Hset. assert (Hp2 : h_nodes (upd c (set_parent (Some p) n) (allocd n h)) !! p = Some np) by (by rewrite lookup_upd_ne).
    rewrite (bind_eq _ tt (upd p (grow_kids [c] np) (upd c (set_parent (Some p) n) (allocd n h)))); [done|].
    rewrite (bind_node _ np) by done. by rewrite (modifyM_eq _ _ np) by done.
  - split; [|split; [done|]].
    + split; [cbn; lia|]. intros i Hi. assert (i <> c) by (unfold c; lia). unfold changed. destruct (decide (i = p)) as [->|Hip].
      * rewrite lookup_upd, Hp. cbn. case_decide; by rewrite ?grow_ids_nil.
      * rewrite !lookup_upd_ne by done. unfold allocd. cbn. rewrite lookup_insert_ne by done. destruct (h_nodes h !! i); [|done]. cbn. case_decide; by rewrite ?grow_ids_nil.
    + rewrite lookup_upd_ne by done. apply lookup_upd.
Qed.

(** ** Attributes *)
Definition grow_attrs (l : list (Name * id)) (n : node) : node :=
  match n_ext n with XElement al nss => set_ext (XElement (al ++ l) nss) n | _ => n end.
Definition attr_changed (d e : id) (l : list (Name * id)) (more : list (str * id)) (i : id) (n : node) : node :=
  if decide (i = d) then grow_ids more n else if decide (i = e) then grow_attrs l n else n.
Definition attrs_into (d e : id) (l : list (Name * id)) (more : list (str * id)) (h h' : heap) : Prop :=
  (h_next h <= h_next h')%nat /\
  forall i, (i < h_next h)%nat -> h_nodes h' !! i = attr_changed d e l more i <$> h_nodes h !! i.
Lemma grow_attrs_nil n : grow_attrs [] n = n.
Proof. destruct n as [ty nm v0 pa ow ch x]. unfold grow_attrs, set_ext. cbn. destruct x; try done. by rewrite app_nil_r. Qed.
Lemma grow_attrs_app m1 m2 n : grow_attrs m2 (grow_attrs m1 n) = grow_attrs (m1 ++ m2) n.
Proof. destruct n as [ty nm v0 pa ow ch x]. unfold grow_attrs, set_ext. cbn. destruct x; try done. cbn. by rewrite app_assoc. Qed.
Lemma attrs_into_refl d e h : attrs_into d e [] [] h h.
Proof. split; [done|]. intros i _. destruct (h_nodes h !! i); cbn; [|done]. unfold attr_changed. repeat case_decide; by rewrite ?grow_ids_nil, ?grow_attrs_nil. Qed.
Lemma attrs_into_trans d e l1 l2 m1 m2 h h1 h2 : attrs_into d e l1 m1 h h1 -> attrs_into d e l2 m2 h1 h2 -> attrs_into d e (l1 ++ l2) (m1 ++ m2) h h2.
Proof.
  intros [H1 H2] [H3 H4]. split; [lia|]. intros i Hi. rewrite H4, H2 by lia. destruct (h_nodes h !! i); cbn; [|done].
  unfold attr_changed. repeat case_decide; by rewrite ?grow_ids_app, ?grow_attrs_app.
Qed.
Lemma into_attrs d p e l1 l2 m1 m2 h h1 h2 : (h_next h <= e)%nat -> into d p l1 m1 h h1 -> attrs_into d e l2 m2 h1 h2 -> into d p l1 (m1 ++ m2) h h2.
Proof.
  intros He [H1 H2] [H3 H4]. split; [lia|]. intros i Hi. rewrite H4, H2 by lia. destruct (h_nodes h !! i); cbn; [|done]. f_equal.
  unfold changed, attr_changed. rewrite (decide_False (P := i = e)) by lia. repeat case_decide; by rewrite ?grow_swap, ?grow_ids_app.
Qed.
Lemma filling_attrs h h' d m e l more : filling h d m -> attrs_into d e l more h h' -> filling h' d (m ++ more).
Proof.
  intros (Hd & k & decl & o & Hn & Ho) Hi. destruct Hi as [H1 H2]. split; [lia|]. rewrite H2, Hn by done. cbn.
  unfold attr_changed. rewrite (decide_True (P := d = d)) by done. do 3 eexists. split; [reflexivity|done].
Qed.

Definition sees (lo : nat) (h : heap) (i : id) : option node := if decide (lo <= i < h_next h)%nat then h_nodes h !! i else None.
Lemma sees_at lo h i : (lo <= i < h_next h)%nat -> sees lo h i = h_nodes h !! i.
Proof. intros. unfold sees. by rewrite decide_True. Qed.

Lemma hm_insert_new {K V} `{EqDecision K} (k : K) (v : V) m : ~ In k (map fst m) -> hm_insert k v m = m ++ [(k, v)].
Proof.
  induction m as [|[k' v'] m IH]; [done|]. cbn. intros H. rewrite bool_decide_false by (intros ->; apply H; by left). rewrite IH; [done|]. tauto.
Qed.
Lemma xml_id_name s k : plain_name s k -> is_id_attribute k false = true <-> s = lit "xml:id".
Proof.
  intros Hp. rewrite (proj1 (C12_id_attribute k)). split.
  - intros [Hl Hc]. destruct Hp as [(_ & _ & ->)|(p & l & (-> & _) & _ & _ & ->)]; cbn in *; [by destruct Hc|]. destruct Hc as [Hc|Hc]; [done|].
    injection Hc as ->. by subst l.
  - intros ->. destruct Hp as [(H & _)|(p & l & (H & Hp & Hl) & _ & _ & ->)].
    + exfalso. unfold one_part, colon_free in H. apply H. vm_compute. tauto.
    + cbn. assert (p = lit "xml" /\ l = lit "id") as [-> ->]; [|by split; [|right]].
      unfold colon_free in *. destruct p as [|a p]; [by vm_compute in H|]. destruct p as [|b p]; [by vm_compute in H|]. destruct p as [|c p]; [by vm_compute in H|].
      destruct p as [|x p]; vm_compute in H; [injection H as <- <- <- <-; by vm_compute|]. injection H as <- <- <- <- H. exfalso. apply Hp. cbn. tauto.
Qed.
Lemma plain_name_inj s s' k : plain_name s k -> plain_name s' k -> s = s'.
Proof.
  intros [(_ & _ & ->)|(p & l & (-> & _) & _ & _ & ->)] [(_ & _ & H)|(p' & l' & (-> & _) & _ & _ & H)]; injection H; congruence.
Qed.
Lemma shown_value E h a raw w : wf_env E -> stored_text h a raw -> shown E raw w -> attr_value E h a = Ok (Some w).
Proof. intros W Hs (l & t0 & t & H1 & H2 & H3 & H4). by eapply C05_references_expanded. Qed.

Definition id_entries (e : id) (ws : list str) : list (str * id) := map (fun w => (w, e)) ws.
Lemma add_attr E h d e q cs k al m name v k' ws : wf_env E -> filling h d m -> (e < h_next h)%nat ->
  h_nodes h !! e = Some (mkNode NElement k None q (Some d) cs (XElement al [])) ->
  plain_name name k' -> ~ In k' (map fst al) ->
  Forall2 (shown E) (attr_ids [(name, v)]) ws -> (forall w, In w ws -> ~ In w (map fst m)) ->
  exists h1 a h', create_attribute_with d name v h = (h1, Ok a) /\ set_attribute_node E e a h1 = (h', Ok a) /\
    attrs_into d e [(k', a)] (id_entries e ws) h h' /\
    holds_attr E (sees (h_next h) h') (fun w x => In (w, x) (m ++ id_entries e ws)) d e (k', a) (name, v).
Proof.
  intros W (Hd & dl & decl & o & Hnd & Ho) He Hne Hk Hnew Hsh Hws.
  set (nt := new_text d v). set (t := h_next h). set (a := S t). set (na := mkNode NAttribute k' None None (Some d) [t] (XAttribute None)).
  set (h1 := allocd na (allocd nt h)). assert (Hde : d <> e) by congruence.
  assert (Hta : t <> a) by (unfold a; lia). assert (Hea : e <> a) by (unfold a, t; lia). assert (Hda : d <> a) by (unfold a, t; lia).
  assert (Het : e <> t) by (unfold t; lia). assert (Hdt : d <> t) by (unfold t; lia).
  assert (Hat : h_nodes h1 !! a = Some na) by (unfold h1, allocd; cbn; by rewrite lookup_insert).
  assert (Htt : h_nodes h1 !! t = Some nt) by (unfold h1, allocd; cbn; rewrite lookup_insert_ne by (by apply not_eq_sym); by rewrite lookup_insert).
  assert (Hold : forall i, i <> a -> i <> t -> h_nodes h1 !! i = h_nodes h !! i).
  { intros i Hi1 Hi2. unfold h1, allocd. cbn. rewrite !lookup_insert_ne by (by apply not_eq_sym). done. }
  assert (Hc : create_attribute_with d name v h = (h1, Ok a)).
  { unfold create_attribute_with, with_handle. rewrite (bind_node _ _ _ _ Hnd). apply plain_name_ok in Hk. rewrite (bind_read _ k') by done.
    unfold new_attribute. done. }
  pose proof (xml_id_name _ _ Hk) as Hid.
  set (nd := mkNode NDocument name_for_document None None None dl (XDocument decl None m o)) in *.
  set (ne := mkNode NElement k None q (Some d) cs (XElement al [])) in *.
  set (h2 := upd e (set_ext (XElement (al ++ [(k', a)]) []) ne) (upd a (set_ext (XAttribute (Some e)) na) h1)).
  assert (Ha2 : h_nodes h2 !! a = Some (set_ext (XAttribute (Some e)) na)) by (unfold h2; rewrite lookup_upd_ne by congruence; apply lookup_upd).
  assert (Hd2 : h_nodes h2 !! d = Some nd) by (unfold h2; rewrite !lookup_upd_ne by congruence; by rewrite Hold).
  assert (Ht2 : h_nodes h2 !! t = Some nt) by (unfold h2; rewrite !lookup_upd_ne by congruence; done).
  assert (Hst : stored_text h2 a v).
  { eexists _, [v]. split; [exact Ha2|]. split; [done|]. split; [|cbn; by rewrite app_nil_r]. constructor; [|constructor].
    exists nt. split; [done|]. left. split; [by left|done]. }
  assert (Hwb : (is_id_attribute k' false = true -> exists w, ws = [w] /\ shown E v w) /\ (is_id_attribute k' false = false -> ws = [])).
  { unfold attr_ids, is_xml_id in Hsh. cbn in Hsh. split.
    - intros Hi. apply Hid in Hi. rewrite bool_decide_true in Hsh by done. cbn in Hsh. inversion Hsh as [|? w ? ? Hw Hn]; subst. inversion Hn; subst. eauto.
    - intros Hi. rewrite bool_decide_false in Hsh by (intros Hx; apply Hid in Hx; congruence). by inversion Hsh. }
  set (h' := match ws with [] => h2 | _ => upd d (grow_ids (id_entries e ws) nd) h2 end).
  assert (Hsn : set_attribute_node E e a h1 = (h', Ok a)).
  { unfold set_attribute_node. rewrite (bind_node _ ne), (bind_node _ na) by (try done; by rewrite Hold).
    change (is_type NElement ne && is_type NAttribute na) with true. cbn [negb].
    rewrite (bind_read _ tt).
    2:{ unfold check_same_document. rewrite (get_node_some _ e ne), (get_node_some _ _ _ Hat) by (by rewrite Hold). cbn [rbind].
        change (is_type NDocument ne) with false. cbn iota. cbn [n_owner ne na].
        rewrite (proj2 (upgrade_some h1 (Some d) d)) by (split; [done|]; rewrite Hold by done; eauto). cbn [unwrap_opt rbind]. by rewrite bool_decide_true. }
    cbn [n_ext na]. rewrite (bind_modifyM _ _ na) by done.
    assert (is_namespace_attribute (n_name na) = false) as ->.
    { apply not_true_iff_false. intros Hn%C12_namespace_attribute. destruct Hn as [Hn _]. cbn in Hn. by destruct Hk as [(_ & _ & ->)|(? & ? & _ & _ & _ & ->)]. }
    rewrite bind_ret, (bind_node _ ne) by (rewrite lookup_upd_ne by congruence; by rewrite Hold). cbn [n_ext ne].
    rewrite (bind_modifyM _ _ ne) by (rewrite lookup_upd_ne by congruence; by rewrite Hold). cbn [n_name na]. rewrite hm_insert_new by done. fold h2.
    rewrite (bind_read _ d).
    2:{ unfold owner_document. rewrite (get_node_some _ _ _ Ha2). cbn [rbind n_owner set_ext na]. rewrite (proj2 (upgrade_some h2 (Some d) d)) by (split; [done|]; eauto). done. }
    rewrite !bool_decide_false by done. cbn [orb]. rewrite (bind_node _ nd) by done. cbn [n_ext nd]. rewrite Ho.
    destruct (is_id_attribute k' false) eqn:Hi.
    - destruct (proj1 Hwb eq_refl) as (w & -> & Hw). rewrite (bind_read _ w) by (by rewrite (shown_value E h2 a v w)).
      rewrite (proj2 (hm_get_none w m)) by (apply Hws; by left). rewrite (bind_modifyM _ _ nd) by done. unfold ret, h'. f_equal. f_equal.
      unfold grow_ids, id_entries. cbn. rewrite hm_insert_new; [done|]. apply Hws. by left.
    - unfold h'. by rewrite (proj2 Hwb eq_refl). }
  assert (Hnx : h_next h' = S (S (h_next h))) by (unfold h'; destruct ws; done).
  assert (Hlk : forall i, i <> d -> h_nodes h' !! i = h_nodes h2 !! i) by (intros i Hi; unfold h'; destruct ws; [done|by rewrite lookup_upd_ne by congruence]).
  exists h1, a, h'. split; [done|]. split; [done|]. split.
  - split; [lia|]. intros i Hi. unfold attr_changed. destruct (decide (i = d)) as [->|Hid1].
    + rewrite Hnd. cbn [fmap option_fmap option_map]. unfold h'. destruct ws; [by rewrite grow_ids_nil|apply lookup_upd].
    + rewrite Hlk by done. unfold h2. destruct (decide (i = e)) as [->|Hie].
      * rewrite lookup_upd, Hne. done.
      * rewrite !lookup_upd_ne by (unfold a, t in *; lia). rewrite Hold by (unfold a, t in *; lia). by destruct (h_nodes h !! i).
  - split; [done|]. split.
    + exists t. unfold sees. rewrite !decide_True by (cbn; unfold a, t; lia). cbn [snd]. rewrite !Hlk by done. split; [exact Ha2|exact Ht2].
    + cbn [fst snd]. intros Hn. apply Hid in Hn. destruct (proj1 Hwb Hn) as (w & -> & Hw). exists w. split; [done|]. apply in_or_app. right. by left.
Qed.

Lemma sees_attrs lo h h' d e l more i n : (d < lo)%nat -> (e < lo)%nat -> attrs_into d e l more h h' -> sees lo h i = Some n -> sees lo h' i = Some n.
Proof.
  intros Hd He [H1 H2] H. unfold sees in *. case_decide; [|done]. rewrite decide_True by lia. rewrite H2, H by lia. cbn. unfold attr_changed.
  by rewrite !decide_False by lia.
Qed.
Lemma sees_into lo h h' d p l more i n : (d < lo)%nat -> (p < lo)%nat -> into d p l more h h' -> sees lo h i = Some n -> sees lo h' i = Some n.
Proof.
  intros Hd He [H1 H2] H. unfold sees in *. case_decide; [|done]. rewrite decide_True by lia. rewrite H2, H by lia. cbn. unfold changed.
  by rewrite !decide_False by lia.
Qed.
Lemma sees_down lo lo' h i n : (lo' <= lo)%nat -> sees lo h i = Some n -> sees lo' h i = Some n.
Proof. intros H. unfold sees. case_decide; [|done]. by rewrite decide_True by lia. Qed.
Lemma attr_ids_cons p l : attr_ids (p :: l) = attr_ids [p] ++ attr_ids l.
Proof. unfold attr_ids. cbn. by destruct (is_xml_id p). Qed.
Lemma id_entries_fst e ws : map fst (id_entries e ws) = ws.
Proof. unfold id_entries. rewrite map_map. cbn. apply map_id. Qed.
Lemma id_entries_app e a b : id_entries e (a ++ b) = id_entries e a ++ id_entries e b.
Proof. apply map_app. Qed.

Lemma attrs_ok E d e : wf_env E -> forall l h m al k q cs ws, filling h d m -> (e < h_next h)%nat ->
  h_nodes h !! e = Some (mkNode NElement k None q (Some d) cs (XElement al [])) ->
  good_attrs l -> (forall p kk, In p l -> plain_name p.1 kk -> ~ In kk (map fst al)) ->
  Forall2 (shown E) (attr_ids l) ws -> NoDup ws -> (forall w, In w ws -> ~ In w (map fst m)) ->
  exists h' al', handle_attributes E d e (map attr_event l) h = (h', POk tt) /\
    attrs_into d e al' (id_entries e ws) h h' /\
    Forall2 (holds_attr E (sees (h_next h) h') (fun w x => In (w, x) (m ++ id_entries e ws)) d e) al' l.
Proof.
  intros W. induction l as [|[name v] l IH]; intros h m al k q cs ws Hf He Hne [Hnd Hg] Hnew Hsh Hws Hdis.
  - inversion Hsh; subst. exists h, []. split; [done|]. split; [apply attrs_into_refl|constructor].
  - rewrite attr_ids_cons in Hsh. apply Forall2_app_inv_l in Hsh as (ws1 & ws2 & Hs1 & Hs2 & ->).
    apply Forall_cons in Hg as [(k' & Hk) Hg]. cbn [map fst] in Hnd. apply NoDup_cons in Hnd as [Hni Hnd].
    apply NoDup_app in Hws as (Hw1 & Hw12 & Hw2).
    destruct (add_attr E h d e q cs k al m name v k' ws1) as (h1 & a & h2 & Hc & Hs & Hi & Hh); try done.
    { apply (Hnew (name, v)); [by left|done]. }
    { intros w Hw. apply Hdis. apply in_or_app. by left. }
    pose proof Hi as [Hn1 Hn2].
    assert (Hde : e <> d) by (destruct Hf as (_ & ? & ? & ? & ? & _); congruence).
    destruct (IH h2 (m ++ id_entries e ws1) (al ++ [(k', a)]) k q cs ws2) as (h' & al' & Hr & Hi' & Hh'); try done.
    { by eapply filling_attrs. }
    { lia. }
    { rewrite Hn2, Hne by done. cbn. unfold attr_changed. rewrite decide_False by done. by rewrite decide_True by done. }
    { intros [name2 v2] kk Hin Hkk. rewrite map_app. intros [Hx|Hx]%in_app_or; [by apply (Hnew (name2, v2) kk); [right|..]|].
      cbn in Hx. destruct Hx as [<-|[]]. cbn in Hkk. pose proof (plain_name_inj _ _ _ Hk Hkk). subst name2. apply Hni. apply elem_of_list_In. apply in_map_iff. by exists (name, v2). }
    { intros w Hw. rewrite map_app, id_entries_fst. intros [Hx|Hx]%in_app_or; [by apply (Hdis w); [apply in_or_app; right|]|].
      apply (Hw12 w); by apply elem_of_list_In. }
    exists h', ((k', a) :: al'). split.
    { cbn [map attr_event handle_attributes fst snd]. unfold pbind, pdom. rewrite Hc, Hs. exact Hr. }
    split.
    { rewrite id_entries_app. by apply (attrs_into_trans d e [(k', a)] al' _ _ h h2 h'). }
    rewrite id_entries_app, app_assoc. constructor.
    + eapply holds_attr_mono; [| |exact Hh].
      * intros i n. eapply sees_attrs; [| |done]; [by destruct Hf|done].
      * intros w x Hx. apply in_or_app. by left.
    + eapply holds_attrs_mono; [| |exact Hh']; [|done]. intros i n. apply sees_down. lia.
Qed.

(** ** One start tag, one leaf *)
Definition ok_below (E : env) (d p : id) (h h' : heap) (m more : list (str * id)) (i : id) (x : pnode) : Prop :=
  holds E (sees (h_next h) h') (fun w e => In (w, e) (m ++ more)) d p i x.
Lemma create_element_eq h d m name k : filling h d m -> plain_name name k -> create_element d name h = (allocd (new_element d k) h, Ok (h_next h)).
Proof.
  intros (_ & l & decl & o & Hn & _) Hk%plain_name_ok. unfold create_element, with_handle. rewrite (bind_node _ _ _ _ Hn). by rewrite (bind_read _ k).
Qed.
Lemma start_ok E h d p m name k l ws : wf_env E -> filling h d m -> can_take h d p NElement -> plain_name name k -> good_attrs l ->
  Forall2 (shown E) (attr_ids l) ws -> NoDup ws -> (forall w, In w ws -> ~ In w (map fst m)) ->
  exists h' al, handle_start E d p (Some name) (map attr_event l) h = (h', POk (h_next h)) /\
    into d p [h_next h] (id_entries (h_next h) ws) h h' /\ (h_next h < h_next h')%nat /\
    h_nodes h' !! h_next h = Some (mkNode NElement k None (Some p) (Some d) [] (XElement al [])) /\
    Forall2 (holds_attr E (sees (S (h_next h)) h') (fun w e => In (w, e) (m ++ id_entries (h_next h) ws)) d (h_next h)) al l.
Proof.
  intros W Hf Hc Hk Hg Hsh Hws Hdis. set (e := h_next h).
  destruct (append_fresh h d p (new_element d k) m Hf Hc) as (h1 & Ha & Hi & Hnx & He); [done|].
  assert (Hf1 : filling h1 d m) by (rewrite <- (app_nil_r m); by eapply filling_into).
  destruct (attrs_ok E d e W l h1 m [] k (Some p) [] ws) as (h' & al & Hr & Hi' & Hh); try done; [unfold e; lia|by intros ? ? _ _ []|].
  exists h', al. split.
  { unfold handle_start, pbind, pdecode, pret, pdom_unwrap, pdom, err_to_panic. rewrite (create_element_eq h d m name k Hf Hk). fold e in Ha |- *. rewrite Ha, Hr. done. }
  assert (Hed : e <> d) by (destruct Hf as [? _]; unfold e; lia).
  split; [by apply (into_attrs d p e [e] al [] _ h h1 h')|]. destruct Hi' as [Hn1 Hn2]. split; [fold e; lia|]. split.
  { rewrite Hn2 by (unfold e; lia). fold e in He. rewrite He. cbn. unfold attr_changed. rewrite decide_False by done. by rewrite decide_True. }
  fold e in Hnx. rewrite <- Hnx. exact Hh.
Qed.

Lemma leaf_ok E h d p m n x : filling h d m -> can_take h d p (n_type n) -> fresh_child d n ->
  (forall look reg i, look i = Some (set_parent (Some p) n) -> holds E look reg d p i x) ->
  exists h', append_child p (h_next h) (allocd n h) = (h', Ok (h_next h)) /\ into d p [h_next h] [] h h' /\ (h_next h < h_next h')%nat /\
    ok_below E d p h h' m [] (h_next h) x.
Proof.
  intros Hf Hc Hn Hx. destruct (append_fresh h d p n m Hf Hc Hn) as (h1 & Ha & Hi & Hnx & He). exists h1. split; [done|]. split; [done|]. split; [lia|].
  apply Hx. rewrite sees_at by lia. done.
Qed.

(** What may stand below a node, by the type of the node. *)
Definition node_kind (x : pnode) : node_type :=
  match x with
  | PElement _ _ _ | PEmptyElement _ _ => NElement | PText _ => NText | PCData _ => NCData | PComment _ => NComment
  | PPi _ => NProcessingInstruction
  end.
(** The event of a leaf. *)
Definition leaf_step (E : env) (d p : id) (x : pnode) : PM id :=
  match x with
  | PElement _ _ _ => pfail PEMalformed
  | PEmptyElement n l => handle_start E d p (Some n) (map attr_event l)
  | PText s => handle_text d p (Some s)
  | PCData s => handle_cdata d p (Some s)
  | PComment s => handle_comment d p (Some s)
  | PPi s => handle_pi d p (Some s)
  end.
Lemma split_once_none c s : ~ In c s -> split_once c s = (s, None).
Proof.
  induction s as [|x s IH]; [done|]. cbn. intros H. rewrite (proj2 (N.eqb_neq x c)) by (intros ->; tauto). by rewrite IH by tauto.
Qed.
Lemma split_once_some c s r : ~ In c s -> split_once c (s ++ c :: r) = (s, Some r).
Proof.
  induction s as [|x s IH]; cbn; intros H; [by rewrite N.eqb_refl|]. rewrite (proj2 (N.eqb_neq x c)) by (intros ->; tauto). by rewrite IH by tauto.
Qed.
Lemma is_white_spec c : is_white_space c = true <-> unicode_white c.
Proof.
  unfold is_white_space, unicode_white, in_range. rewrite !orb_true_iff, !andb_true_iff, !N.leb_le, !N.eqb_eq. tauto.
Qed.
Lemma drop_white_app a s : Forall unicode_white a -> drop_white (a ++ s) = drop_white s.
Proof. induction 1 as [|c a Hc _ IH]; [done|]. cbn. apply is_white_spec in Hc. by rewrite Hc. Qed.
Lemma drop_white_stop c u : ~ unicode_white c -> drop_white (c :: u) = c :: u.
Proof. intros H. cbn. destruct (is_white_space c) eqn:Hc; [|done]. by apply is_white_spec in Hc. Qed.
Lemma drop_white_all b : Forall unicode_white b -> drop_white b = [].
Proof. intros H. rewrite <- (app_nil_r b). by rewrite drop_white_app. Qed.
Lemma trim_stripped s t : stripped s t -> trim s = t.
Proof.
  intros (a & b & -> & Ha & Hb & Hf & Hl). unfold trim. rewrite drop_white_app by done.
  assert (Hrb : Forall unicode_white (rev b)) by (by apply Forall_rev).
  destruct t as [|c u].
  - cbn [app]. rewrite (drop_white_all b Hb). reflexivity.
  - cbn [app]. rewrite drop_white_stop by (by eapply Hf). change (c :: u ++ b) with ((c :: u) ++ b). rewrite rev_app_distr, drop_white_app by done.
    destruct (@exists_last _ (c :: u)) as (u' & c' & Hu); [done|]. rewrite Hu, rev_app_distr. cbn [rev app]. rewrite drop_white_stop by (by eapply Hl).
    change (c' :: rev u') with ([c'] ++ rev u'). rewrite rev_app_distr, rev_involutive. done.
Qed.
Lemma pi_parts_ok s t d : pi_text s t d -> pi_parts s = (t, d).
Proof.
  unfold pi_parts. change C_SPACE with 32%N. intros [? H|t0 s0 H H2|t0 s0 d0 H H2 H3].
  - by rewrite split_once_none.
  - rewrite split_once_some by done. by rewrite (trim_stripped _ _ H2).
  - rewrite split_once_some by done. rewrite (trim_stripped _ _ H2). by destruct d0.
Qed.
Lemma drop_white_strip s : exists a, s = a ++ drop_white s /\ Forall unicode_white a /\ forall c u, drop_white s = c :: u -> ~ unicode_white c.
Proof.
  induction s as [|c s (a & H1 & H2 & H3)]; [by exists []|]. cbn. destruct (is_white_space c) eqn:Hc.
  - exists (c :: a). split; [cbn; by rewrite <- H1|]. split; [|done]. constructor; [by apply is_white_spec|done].
  - exists []. split; [done|]. split; [done|]. intros c' u [= <- <-] Hw. apply is_white_spec in Hw. congruence.
Qed.
Lemma trim_strips s : stripped s (trim s).
Proof.
  unfold trim. destruct (drop_white_strip s) as (a & H1 & H2 & H3). set (t := drop_white s) in *.
  destruct (drop_white_strip (rev t)) as (b & H4 & H5 & H6). set (u := drop_white (rev t)) in *.
  assert (Ht : t = rev u ++ rev b) by (rewrite <- (rev_involutive t), H4; apply rev_app_distr).
  exists a, (rev b). split; [by rewrite <- Ht|]. split; [done|]. split; [by apply Forall_rev|]. split.
  - intros c v Hc. apply (H3 c (v ++ rev b)). by rewrite Ht, Hc.
  - intros c v Hc. apply (H6 c (rev v)). rewrite <- (rev_involutive u), Hc, rev_app_distr. done.
Qed.
Lemma split_once_cases s : let '(a, b) := split_once 32 s in ~ In 32%N a /\ match b with None => s = a | Some t => s = a ++ 32%N :: t end.
Proof.
  induction s as [|c s IH]; [by split; [intros []|]|]. cbn. destruct (N.eqb_spec c 32) as [->|Hc]; [by split; [intros []|]|].
  destruct (split_once 32 s) as [a b]. destruct IH as [H1 H2]. split; [by intros [?|?]|]. destruct b; by subst.
Qed.
Lemma pi_parts_text s t d : pi_parts s = (t, d) -> pi_text s t d.
Proof.
  unfold pi_parts. change C_SPACE with 32%N. pose proof (split_once_cases s) as H. destruct (split_once 32 s) as [a [b|]]; destruct H as [H1 ->]; intros [= <- <-]; [|by constructor].
  pose proof (trim_strips b) as Hb. destruct (trim b) as [|c x] eqn:Ht; cbn; [by constructor|]. by constructor.
Qed.
Lemma create_pi_eq h d m t k v : filling h d m -> plain_name t k -> ~ xml_target t ->
  create_processing_instruction d t v h = (allocd (new_processing_instruction d k v) h, Ok (h_next h)).
Proof.
  intros (_ & l & decl & o & Hn & _) Hk%plain_name_ok Hx. unfold create_processing_instruction, with_handle. rewrite (bind_node _ _ _ _ Hn).
  destruct (str_eqb (to_ascii_lowercase t) XML_PI_RESERVED) eqn:Hy; [by apply xml_target_iff in Hy|]. by rewrite (bind_read _ k).
Qed.

Definition is_leaf (x : pnode) : bool := match x with PElement _ _ _ => false | _ => true end.
Lemma leaf_step_ok E h d p m x ws : wf_env E -> filling h d m -> can_take h d p (node_kind x) -> is_leaf x = true -> readable x ->
  Forall2 (shown E) (raw_ids x) ws -> NoDup ws -> (forall w, In w ws -> ~ In w (map fst m)) ->
  exists h', leaf_step E d p x h = (h', POk (h_next h)) /\ into d p [h_next h] (id_entries (h_next h) ws) h h' /\ (h_next h < h_next h')%nat /\
    ok_below E d p h h' m (id_entries (h_next h) ws) (h_next h) x.
Proof.
  intros W Hf Hc Hlf Hr Hsh Hws Hdis. pose proof Hf as (_ & dl & decl & o & Hnd & _).
  destruct x as [|name attrs|s|s|s|s]; [done|..]; cbn [node_kind raw_ids leaf_step] in *; [|inversion Hsh; subst..].
  - inversion Hr as [|? k ? Hk Hg| | | |]; subst.
    destruct (start_ok E h d p m name k attrs ws) as (h' & al & Hs & Hi & Hlt & He & Ha); try done. exists h'. split; [done|]. split; [done|]. split; [done|].
    eapply ho_empty; [done|rewrite sees_at by lia; done|]. eapply holds_attrs_mono; [| |exact Ha]; [|done]. intros i n. apply sees_down. lia.
  - destruct (leaf_ok E h d p m (new_text d s) (PText s)) as (h' & Ha & Hi & Hlt & Hk); try done; [by constructor|].
    exists h'. split; [|done]. unfold handle_text, pbind, pdecode, pret, pdom, create_text_node, with_handle. rewrite (bind_node _ _ _ _ Hnd), allocM_eq. by rewrite Ha.
  - destruct (leaf_ok E h d p m (new_cdata d s) (PCData s)) as (h' & Ha & Hi & Hlt & Hk); try done; [by constructor|].
    exists h'. split; [|done]. unfold handle_cdata, pbind, pdecode, pret, pdom_unwrap, pdom, err_to_panic, create_cdata_section, with_handle. rewrite (bind_node _ _ _ _ Hnd), allocM_eq. by rewrite Ha.
  - destruct (leaf_ok E h d p m (new_comment d s) (PComment s)) as (h' & Ha & Hi & Hlt & Hk); try done; [by constructor|].
    exists h'. split; [|done]. unfold handle_comment, pbind, pdecode, pret, pdom, create_comment, with_handle. rewrite (bind_node _ _ _ _ Hnd), allocM_eq. by rewrite Ha.
  - inversion Hr as [| | | | |? t k v Hp Hk Hx]; subst.
    destruct (leaf_ok E h d p m (new_processing_instruction d k v) (PPi s)) as (h' & Ha & Hi & Hlt & Hk'); try done; [by econstructor|].
    exists h'. split; [|done]. unfold handle_pi, pbind, pdecode, pret, pdom_unwrap, pdom, err_to_panic. rewrite (pi_parts_ok _ _ _ Hp), (create_pi_eq h d m t k v) by done. by rewrite Ha.
Qed.

(** ** The content of an element *)
Definition can_hold (h : heap) (d p : id) : Prop :=
  exists np, h_nodes h !! p = Some np /\ (p < h_next h)%nat /\ n_type np = NElement /\ n_owner np = Some d.
Lemma can_hold_take h d p x : can_hold h d p -> can_take h d p (node_kind x).
Proof.
  intros (np & Hp & Hlt & Ht & Ho). exists np. rewrite Ht. split; [done|]. split; [done|]. split; [by destruct x|]. split; [by right|done].
Qed.
Lemma can_hold_into h h' d p l m : can_hold h d p -> into d p l m h h' -> can_hold h' d p.
Proof.
  intros (np & Hp & Hlt & Ht & Ho) [H1 H2]. eexists. rewrite H2, Hp by done. split; [reflexivity|]. split; [lia|].
  rewrite changed_type, changed_owner. by split.
Qed.
Lemma ok_below_later E d p h h1 h2 m m1 m2 l i x : (d < h_next h)%nat -> (p < h_next h)%nat -> into d p l m2 h1 h2 ->
  ok_below E d p h h1 m m1 i x -> ok_below E d p h h2 m (m1 ++ m2) i x.
Proof.
  intros Hd Hp Hi. apply holds_mono; [intros j n; by apply (sees_into _ h1 h2 d p l m2)|]. intros w e Hin. rewrite app_assoc. apply in_or_app. by left.
Qed.
Lemma ok_below_earlier E d p h h1 h2 m m1 m2 i x : (h_next h <= h_next h1)%nat ->
  ok_below E d p h1 h2 (m ++ m1) m2 i x -> ok_below E d p h h2 m (m1 ++ m2) i x.
Proof. intros Hl. apply holds_mono; [intros j n; by apply sees_down|]. intros w e. by rewrite app_assoc. Qed.

Section loop.
  Context (E : env) (W : wf_env E) (d : id).
  Definition item_ok (x : pnode) : Prop := forall h p m ws rest fuel,
    filling h d m -> can_hold h d p -> readable x -> Forall2 (shown E) (raw_ids x) ws -> NoDup ws -> (forall w, In w ws -> ~ In w (map fst m)) ->
    (length (events_of x) <= fuel)%nat ->
    exists h' more, element fuel E d p (events_of x ++ rest) h = element (pred fuel) E d p rest h' /\ (h_next h < h_next h')%nat /\
      into d p [h_next h] more h h' /\ map fst more = ws /\ ok_below E d p h h' m more (h_next h) x.
  Definition items_ok (l : list pnode) : Prop := forall h p m ws rest fuel,
    filling h d m -> can_hold h d p -> Forall readable l -> Forall2 (shown E) (raw_ids_all l) ws -> NoDup ws -> (forall w, In w ws -> ~ In w (map fst m)) ->
    (length (events_of_all l) <= fuel)%nat ->
    exists h' more cs, element fuel E d p (events_of_all l ++ rest) h = element (fuel - length l) E d p rest h' /\
      into d p cs more h h' /\ map fst more = ws /\ Forall2 (ok_below E d p h h' m more) cs l.
  Lemma events_pos x : (1 <= length (events_of x))%nat. Proof. destruct x; cbn; lia. Qed.
  Lemma events_length l : (length l <= length (events_of_all l))%nat.
  Proof. induction l as [|x l IH]; [done|]. unfold events_of_all in *. cbn. rewrite app_length. pose proof (events_pos x). lia. Qed.
  Lemma items_from l : Forall item_ok l -> items_ok l.
  Proof.
    induction 1 as [|x l Hx _ IH]; intros h p m ws rest fuel Hf Hc Hr Hsh Hws Hdis Hfu.
    - inversion Hsh; subst. exists h, [], []. rewrite Nat.sub_0_r. split; [done|]. split; [apply into_refl|]. split; [done|constructor].
    - unfold raw_ids_all in Hsh. cbn in Hsh. apply Forall2_app_inv_l in Hsh as (ws1 & ws2 & Hs1 & Hs2 & ->).
      apply NoDup_app in Hws as (Hw1 & Hw12 & Hw2). apply Forall_cons in Hr as [Hr1 Hr2].
      unfold events_of_all in Hfu. cbn in Hfu. rewrite app_length in Hfu. pose proof (events_pos x) as Hpos.
      destruct (Hx h p m ws1 (events_of_all l ++ rest) fuel) as (h1 & m1 & He & Hlt & Hi & Hm1 & Hok); try done; [|lia|].
      { intros w Hw. apply Hdis. apply in_or_app. by left. }
      pose proof Hf as [Hd _]. pose proof Hc as (np & _ & Hp & _).
      destruct (IH h1 p (m ++ m1) ws2 rest (pred fuel)) as (h2 & m2 & cs & He2 & Hi2 & Hm2 & Hok2); try done.
      { by eapply filling_into. }
      { by eapply can_hold_into. }
      { intros w Hw. rewrite map_app, Hm1. intros [Hy|Hy]%in_app_or; [by apply (Hdis w); [apply in_or_app; right|]|]. apply (Hw12 w); by apply elem_of_list_In. }
      { unfold events_of_all. lia. }
      exists h2, (m1 ++ m2), (h_next h :: cs). split.
      { unfold events_of_all. cbn [map concat length]. rewrite <- app_assoc. unfold events_of_all in He. rewrite He. unfold events_of_all in He2. rewrite He2.
        f_equal. lia. }
      split; [by apply (into_trans d p [h_next h] cs m1 m2 h h1 h2)|]. split; [rewrite map_app; by f_equal|]. constructor.
      + by eapply ok_below_later.
      + eapply Forall2_impl; [exact Hok2|]. intros i y. apply ok_below_earlier. lia.
  Qed.
  Lemma element_leaf x k p rest h h' i : is_leaf x = true -> leaf_step E d p x h = (h', POk i) ->
    element (S k) E d p (events_of x ++ rest) h = element k E d p rest h'.
  Proof. intros Hl H. destruct x; [done|..]; cbn [events_of app element]; cbn [leaf_step] in H; by rewrite H. Qed.
  Lemma every_item : forall x, item_ok x.
  Proof.
    apply (pnode_ind' item_ok).
    2-6: intros; intros h p m ws rest fuel Hf Hc Hr Hsh Hws Hdis Hfu;
      (match goal with |- context [events_of ?x] => destruct (leaf_step_ok E h d p m x ws) as (h' & Hs & Hi & Hlt & Hok); try done; [by apply can_hold_take|] end);
      exists h', (id_entries (h_next h) ws); (destruct fuel as [|k]; [cbn in Hfu; lia|]);
      (split; [by eapply element_leaf|]); (split; [done|]); (split; [done|]); (split; [apply id_entries_fst|done]).
    intros name l kids Hk%items_from h p m ws rest fuel Hf Hc Hr Hsh Hws Hdis Hfu.
    inversion Hr as [? k ? ? Hnm Hg Hrk| | | | |]; subst. cbn [raw_ids] in Hsh. apply Forall2_app_inv_l in Hsh as (ws1 & ws2 & Hs1 & Hs2 & ->).
    apply NoDup_app in Hws as (Hw1 & Hw12 & Hw2). cbn [events_of length] in Hfu. rewrite app_length in Hfu. cbn [length] in Hfu.
    set (e := h_next h).
    destruct (start_ok E h d p m name k l ws1 W Hf) as (h1 & al & Hs & Hi & Hlt & He & Ha); try done; [by apply (can_hold_take h d p (PElement name l kids))| |].
    { intros w Hw. apply Hdis. apply in_or_app. by left. }
    fold e in Hs, Hi, Hlt, He, Ha. destruct fuel as [|fuel]; [lia|].
    assert (Hf1 : filling h1 d (m ++ id_entries e ws1)) by (by eapply filling_into).
    destruct (Hk h1 e (m ++ id_entries e ws1) ws2 (EEnd :: rest) fuel) as (h2 & m2 & cs & Hel & Hi2 & Hm2 & Hok2); try done.
    { eexists. split; [exact He|]. done. }
    { intros w Hw. rewrite map_app, id_entries_fst. intros [Hy|Hy]%in_app_or; [by apply (Hdis w); [apply in_or_app; right|]|]. apply (Hw12 w); by apply elem_of_list_In. }
    { unfold events_of_all. lia. }
    pose proof (events_length kids) as Hlen. unfold events_of_all in Hlen.
    destruct (fuel - length kids)%nat as [|f2] eqn:Hf2; [lia|]. cbn [element] in Hel.
    pose proof Hf as [Hd _]. assert (Hed : e <> d) by (unfold e; lia).
    exists h2, (id_entries e ws1 ++ m2). split.
    { cbn [events_of app pred]. rewrite <- app_assoc. cbn [app]. cbn [element]. rewrite Hs. unfold events_of_all in Hel. rewrite Hel. done. }
    destruct Hi2 as [Hn1 Hn2]. split; [fold e; lia|]. split; [apply (into_below d p e [e] cs _ _ h h1 h2); [done|done|by split]|].
    split; [rewrite map_app, id_entries_fst; by f_equal|].
    unfold ok_below. eapply ho_element.
    - exact Hnm.
    - rewrite sees_at by (fold e; lia). fold e. rewrite Hn2, He by lia. cbn. unfold changed. rewrite (decide_False (P := e = d)) by done.
      rewrite (decide_True (P := e = e)) by done. done.
    - eapply holds_attrs_mono; [| |exact Ha].
      + intros j n Hj. fold e in Hj |- *. unfold sees in *. case_decide; [|done]. rewrite decide_True by lia.
        rewrite Hn2, Hj by lia. cbn. unfold changed. by rewrite !decide_False by lia.
      + intros w x Hin. rewrite app_assoc. apply in_or_app. by left.
    - eapply Forall2_impl; [exact Hok2|]. intros i y. apply ok_below_earlier. lia.
  Qed.
End loop.

(** ** The top of the document *)
Definition no_elements (h : heap) (l : list id) : Prop :=
  Forall (fun i => (i < h_next h)%nat /\ exists n, h_nodes h !! i = Some n /\ n_type n <> NElement) l.
Lemma no_elements_any h l : no_elements h l -> any_element h l = Ok false.
Proof.
  induction 1 as [|i l (_ & n & Hn & Ht) _ IH]; [done|]. cbn. rewrite (get_node_some _ _ _ Hn). cbn [rbind]. apply is_type_false in Ht. by rewrite Ht.
Qed.
Lemma no_elements_into h h' d p l m cs : no_elements h l -> into d p cs m h h' -> no_elements h' l.
Proof.
  intros H [H1 H2]. eapply Forall_impl; [exact H|]. intros i (Hi & n & Hn & Ht). split; [lia|]. rewrite H2, Hn by done. eexists. split; [reflexivity|].
  by rewrite changed_type.
Qed.
Definition ready (h : heap) (d : id) (b : bool) : Prop :=
  exists nd, h_nodes h !! d = Some nd /\ (d < h_next h)%nat /\ n_type nd = NDocument /\ (b = true -> no_elements h (n_children nd)).
Lemma ready_take h d x b : ready h d b -> top_item x -> (is_element x = true -> b = true) -> can_take h d d (node_kind x).
Proof.
  intros (nd & Hn & Hd & Ht & Hb) Hx He. exists nd. rewrite Ht. split; [done|]. split; [done|]. split; [by destruct x|]. split; [by left|].
  intros _ Hk. assert (Hbt : b = true) by (apply He; by destruct x). specialize (Hb Hbt). split; [by apply no_elements_any|].
  eapply Forall_impl; [exact Hb|]. by intros i [? _].
Qed.
Lemma ready_into h h' d b b' more i x E m : ready h d b -> into d d [i] more h h' -> (i < h_next h')%nat -> ok_below E d d h h' m more i x ->
  (b' = true -> b = true /\ is_element x = false) -> ready h' d b'.
Proof.
  intros (nd & Hn & Hd & Ht & Hb) Hi Hlt Hok Hbb. pose proof Hi as [H1 H2]. exists (changed d d [i] more d nd). rewrite H2, Hn by done. split; [done|].
  split; [lia|]. rewrite changed_type. split; [done|]. intros Hx. destruct (Hbb Hx) as [Hb1 He]. specialize (Hb Hb1).
  unfold changed. rewrite !(decide_True (P := d = d)) by done. unfold grow_kids. cbn [n_children set_children].
  assert (n_children (grow_ids more nd) = n_children nd) as -> by (unfold grow_ids, set_ext; destruct nd as [? ? ? ? ? ? y]; by destruct y).
  apply Forall_app. split; [by eapply no_elements_into|]. constructor; [|constructor]. split; [done|].
  unfold ok_below in Hok. assert (Hs : forall n, sees (h_next h) h' i = Some n -> h_nodes h' !! i = Some n) by (intros n; unfold sees; by case_decide).
  inversion Hok; subst; try done; (eexists; split; [by apply Hs|done]).
Qed.
Lemma ids_apart (m m1 : list (str * id)) ws1 ws2 : map fst m1 = ws1 -> (forall w, w ∈ ws1 -> w ∉ ws2) -> (forall w, In w (ws1 ++ ws2) -> ~ In w (map fst m)) ->
  forall w, In w ws2 -> ~ In w (map fst (m ++ m1)).
Proof.
  intros <- H1 H2 w Hw. rewrite map_app. intros [Hy|Hy]%in_app_or; [by apply (H2 w); [apply in_or_app; right|]|]. apply (H1 w); by apply elem_of_list_In.
Qed.

Section top.
  Context (E : env) (W : wf_env E) (d : id).
  Lemma loop_leaf x k rest h h' i : is_leaf x = true -> top_item x -> leaf_step E d d x h = (h', POk i) ->
    document_loop (S k) E d (events_of x ++ rest) h = document_loop k E d rest h'.
  Proof. intros Hl Ht H. destruct x; [done|..]; try done; cbn [events_of app document_loop]; cbn [leaf_step] in H; by rewrite H. Qed.
  (** The start of an element and its content, up to what follows the content. *)
  Lemma open_ok h m name k l kids ws rest b :
    filling h d m -> ready h d b -> b = true -> plain_name name k -> good_attrs l -> Forall readable kids ->
    Forall2 (shown E) (attr_ids l ++ raw_ids_all kids) ws -> NoDup ws -> (forall w, In w ws -> ~ In w (map fst m)) ->
    exists h1 h2 more fuel, handle_start E d d (Some name) (map attr_event l) h = (h1, POk (h_next h)) /\
      element (S (length (events_of_all kids ++ rest))) E d (h_next h) (events_of_all kids ++ rest) h1 = element (S fuel) E d (h_next h) rest h2 /\
      (length rest <= fuel)%nat /\
      (h_next h < h_next h2)%nat /\ into d d [h_next h] more h h2 /\ map fst more = ws /\ ok_below E d d h h2 m more (h_next h) (PElement name l kids).
  Proof.
    intros Hf Hrd Hb Hnm Hg Hrk Hsh Hws Hdis. apply Forall2_app_inv_l in Hsh as (ws1 & ws2 & Hs1 & Hs2 & ->).
    apply NoDup_app in Hws as (Hw1 & Hw12 & Hw2). set (e := h_next h).
    destruct (start_ok E h d d m name k l ws1 W Hf) as (h1 & al & Hs & Hi & Hlt & He & Ha); try done.
    { by apply (ready_take h d (PElement name l kids) b). }
    { intros w Hw. apply Hdis. apply in_or_app. by left. }
    fold e in Hs, Hi, Hlt, He, Ha.
    assert (Hf1 : filling h1 d (m ++ id_entries e ws1)) by (by eapply filling_into).
    assert (Hk : items_ok E d kids) by (apply items_from; apply Forall_forall; intros x _; by apply every_item).
    destruct (Hk h1 e (m ++ id_entries e ws1) ws2 rest (S (length (events_of_all kids ++ rest)))) as (h2 & m2 & cs & Hel & Hi2 & Hm2 & Hok2); try done.
    { eexists. split; [exact He|]. done. }
    { eapply ids_apart; [apply id_entries_fst|done..]. }
    { rewrite app_length. lia. }
    pose proof (events_length kids) as Hlen. rewrite app_length in Hel.
    exists h1, h2, (id_entries e ws1 ++ m2), (length (events_of_all kids) + length rest - length kids)%nat.
    split; [done|]. split; [rewrite app_length; rewrite Hel; f_equal; lia|]. split; [lia|].
    pose proof Hf as [Hd _]. assert (Hed : e <> d) by (unfold e; lia).
    destruct Hi2 as [Hn1 Hn2]. split; [lia|]. split; [apply (into_below d d e [e] cs _ _ h h1 h2); [done|done|by split]|].
    split; [rewrite map_app, id_entries_fst; by f_equal|].
    unfold ok_below. eapply ho_element.
    - exact Hnm.
    - rewrite sees_at by (fold e; lia). fold e. rewrite Hn2, He by lia. cbn. unfold changed. rewrite (decide_False (P := e = d)) by done.
      rewrite (decide_True (P := e = e)) by done. done.
    - eapply holds_attrs_mono; [| |exact Ha].
      + intros j n Hj. fold e in Hj |- *. unfold sees in *. case_decide; [|done]. rewrite decide_True by lia.
        rewrite Hn2, Hj by lia. cbn. unfold changed. by rewrite !decide_False by lia.
      + intros w x Hin. rewrite app_assoc. apply in_or_app. by left.
    - eapply Forall2_impl; [exact Hok2|]. intros i y. apply ok_below_earlier. lia.
  Qed.
  Lemma loop_item x h m ws rest k b : filling h d m -> ready h d b -> readable x -> top_item x -> (is_element x = true -> b = true) ->
    Forall2 (shown E) (raw_ids x) ws -> NoDup ws -> (forall w, In w ws -> ~ In w (map fst m)) ->
    exists h' more, document_loop (S k) E d (events_of x ++ rest) h = document_loop k E d rest h' /\ (h_next h < h_next h')%nat /\
      into d d [h_next h] more h h' /\ map fst more = ws /\ ok_below E d d h h' m more (h_next h) x.
  Proof.
    intros Hf Hrd Hr Ht Hb Hsh Hws Hdis. destruct (is_leaf x) eqn:Hl.
    - destruct (leaf_step_ok E h d d m x ws) as (h' & Hs & Hi & Hlt & Hok); try done; [by eapply ready_take|].
      exists h', (id_entries (h_next h) ws). split; [by eapply loop_leaf|]. split; [done|]. split; [done|]. split; [apply id_entries_fst|done].
    - destruct x as [name l kids| | | | |]; try done. inversion Hr as [? nm ? ? Hnm Hg Hrk| | | | |]; subst.
      destruct (open_ok h m name nm l kids ws (EEnd :: rest) b) as (h1 & h2 & more & fuel & Hs & Hel & Hfl & Hlt & Hi & Hm & Hok); try done; [by apply Hb|].
      exists h2, more. split; [|done]. cbn [events_of app]. rewrite <- app_assoc. cbn [app document_loop]. rewrite Hs.
      unfold events_of_all in Hel. cbn [element] in Hel |- *. rewrite Hel. done.
  Qed.
  Lemma loop_items l : forall h m ws rest fuel, filling h d m -> ready h d (existsb is_element l) -> Forall readable l -> Forall top_item l -> one_root l ->
    Forall2 (shown E) (raw_ids_all l) ws -> NoDup ws -> (forall w, In w ws -> ~ In w (map fst m)) -> (length l <= fuel)%nat ->
    exists h' more cs, document_loop fuel E d (events_of_all l ++ rest) h = document_loop (fuel - length l) E d rest h' /\
      into d d cs more h h' /\ map fst more = ws /\ Forall2 (ok_below E d d h h' m more) cs l.
  Proof.
    induction l as [|x l IH]; intros h m ws rest fuel Hf Hrd Hr Ht Hone Hsh Hws Hdis Hfu.
    - inversion Hsh; subst. exists h, [], []. rewrite Nat.sub_0_r. split; [done|]. split; [apply into_refl|]. split; [done|constructor].
    - unfold raw_ids_all in Hsh. cbn in Hsh. apply Forall2_app_inv_l in Hsh as (ws1 & ws2 & Hs1 & Hs2 & ->).
      apply NoDup_app in Hws as (Hw1 & Hw12 & Hw2). apply Forall_cons in Hr as [Hr1 Hr2]. apply Forall_cons in Ht as [Ht1 Ht2].
      destruct fuel as [|fuel]; [cbn in Hfu; lia|]. cbn [length] in Hfu.
      destruct (loop_item x h m ws1 (events_of_all l ++ rest) fuel _ Hf Hrd) as (h1 & m1 & He & Hlt & Hi & Hm1 & Hok); try done.
      { cbn. by intros ->. }
      { intros w Hw. apply Hdis. apply in_or_app. by left. }
      assert (Hone2 : one_root l /\ (existsb is_element l = true -> is_element x = false)).
      { unfold one_root in *. cbn in Hone. destruct (is_element x); cbn in Hone; [|by split].
        destruct (List.filter is_element l) as [|y z] eqn:Hfl; cbn in Hone; [|lia]. split; [cbn; lia|]. intros (y & Hy1 & Hy2)%existsb_exists.
        exfalso. assert (Hin : In y (List.filter is_element l)) by (by apply filter_In). by rewrite Hfl in Hin. }
      destruct Hone2 as [Hone1 Hone2].
      destruct (IH h1 (m ++ m1) ws2 rest fuel) as (h2 & m2 & cs & He2 & Hi2 & Hm2 & Hok2); try done.
      { by eapply filling_into. }
      { eapply ready_into; [exact Hrd|exact Hi|lia|exact Hok|]. intros Hex. split; [cbn; rewrite Hex; apply orb_true_r|by apply Hone2]. }
      { by eapply ids_apart. }
      { lia. }
      exists h2, (m1 ++ m2), (h_next h :: cs). split.
      { unfold events_of_all. cbn [map concat length]. rewrite <- app_assoc. unfold events_of_all in He. rewrite He. unfold events_of_all in He2. rewrite He2. done. }
      pose proof Hf as [Hd _].
      split; [by apply (into_trans d d [h_next h] cs m1 m2 h h1 h2)|]. split; [rewrite map_app; by f_equal|]. constructor.
      + by eapply ok_below_later.
      + eapply Forall2_impl; [exact Hok2|]. intros i y. apply ok_below_earlier. lia.
  Qed.
End top.
