(** * ProofWildOps: the weaker invariant holds in every state an untyped history reaches *)
From Coq Require Import Lia.
From Verif Require Import SpecWild SpecName ProofText ProofName ProofInv ProofSteps ProofOps ProofWildInv ProofWildSteps.

(** ** A small program logic *)
Definition wtriple {A} (L : lab -> Prop) (h : heap) (m : M A) (Q : A -> heap -> Prop) : Prop :=
  WInv h -> forall h' r, m h = (h', r) -> returned r -> wisteps L h h' /\ forall a, r = Ok a -> Q a h'.

Lemma wtriple_bind {A B} L h (m : M A) (k : A -> M B) Q R :
  wtriple L h m R -> (forall a h1, wisteps L h h1 -> R a h1 -> wtriple L h1 (k a) Q) -> wtriple L h (bind m k) Q.
Proof.
  intros Hm Hk HI h' r H Hr. apply bind_inv in H as [(h1 & a & H1 & H2)|(e & H1 & ->)]; [..|done].
  - destruct (Hm HI _ _ H1 I) as [Hs HR]. specialize (HR a eq_refl).
    destruct (Hk a h1 Hs HR (wisteps_inv _ _ _ Hs HI) _ _ H2 Hr) as [Hs2 HQ]. split; [by eapply wisteps_app|done].
  - destruct (Hm HI _ _ H1 I) as [Hs _]. split; [done|]. intros a [=].
Qed.
Lemma wtriple_assoc {A B C} L h (m : M A) (k : A -> M B) (g : B -> M C) Q :
  wtriple L h (bind (bind m k) g) Q -> wtriple L h (bind m (fun a => bind (k a) g)) Q.
Proof. intros H HI h' r H' Hr. rewrite <- bind_assoc in H'. by apply H. Qed.
Lemma wtriple_ret {A} L h (a : A) (Q : A -> heap -> Prop) : Q a h -> wtriple L h (ret a) Q.
Proof. intros HQ _ h' r [= <- <-] _. split; [apply wisteps_nil|]. by intros ? [= <-]. Qed.
Lemma wtriple_fail {A} L h e (Q : A -> heap -> Prop) : wtriple L h (fail e) Q.
Proof. intros _ h' r [= <- <-] _. split; [apply wisteps_nil|]. done. Qed.
Lemma wtriple_panic {A} L h p (Q : A -> heap -> Prop) : wtriple L h (panic_ p) Q.
Proof. intros _ h' r [= <- <-] []. Qed.
Lemma wtriple_lift {A} L h (f : heap -> res A) (Q : A -> heap -> Prop) : (forall a, f h = Ok a -> Q a h) -> wtriple L h (lift f) Q.
Proof. intros HQ _ h' r [= <- <-] _. split; [apply wisteps_nil|]. intros a Ha. auto. Qed.
Lemma wtriple_getM L h i (Q : node -> heap -> Prop) : (forall n, h_nodes h !! i = Some n -> Q n h) -> wtriple L h (getM i) Q.
Proof. intros HQ. apply wtriple_lift. intros n Hn%get_node_ok. auto. Qed.
Lemma wtriple_weaken {A} L h (m : M A) (Q R : A -> heap -> Prop) :
  wtriple L h m Q -> (forall a h', wisteps L h h' -> WInv h' -> Q a h' -> R a h') -> wtriple L h m R.
Proof.
  intros Hm HQ HI h' r H Hr. destruct (Hm HI _ _ H Hr) as [Hs HR]. split; [done|]. intros a Ha.
  apply HQ; [done|by eapply wisteps_inv|auto].
Qed.
Lemma wtriple_labels {A} (L L' : lab -> Prop) h (m : M A) Q : (forall l, L l -> L' l) -> wtriple L h m Q -> wtriple L' h m Q.
Proof. intros HL Hm HI h' r H Hr. destruct (Hm HI _ _ H Hr) as [Hs HR]. split; [by eapply wisteps_weaken|done]. Qed.
Lemma wtriple_alloc (L : lab -> Prop) h n (Q : id -> heap -> Prop) :
  L (LAlloc n) -> (WInv h -> wnode_ok (info h) (h_next h) (h_next h) n) -> n_parent n = None ->
  Q (h_next h) (allocd n h) -> wtriple L h (allocM n) Q.
Proof.
  intros HL Hok Hp HQ HI h' r [= <- <-] _. split; [|by intros ? [= <-]].
  eapply wisteps_one; [done|]. apply wpr_alloc; auto.
Qed.
Lemma wtriple_value (L : lab -> Prop) h i f (Q : unit -> heap -> Prop) :
  L (LValue i) -> (forall n, exists v, f n = set_value v n) ->
  (forall n, h_nodes h !! i = Some n -> Q tt (upd i (f n) h)) -> wtriple L h (modifyM i f) Q.
Proof.
  intros HL Hf HQ HI h' r H Hr. unfold modifyM in H. destruct (h_nodes h !! i) as [n|] eqn:Hn; [|by injection H as <- <-].
  injection H as <- <-. split; [|intros [] _; by apply HQ]. destruct (Hf n) as [v ->]. eapply wisteps_one; [done|]. by apply wpr_value.
Qed.
Lemma wtriple_ext (L : lab -> Prop) h i n x (Q : unit -> heap -> Prop) :
  h_nodes h !! i = Some n -> L (LExt i (n_ext n) x) -> ext_change (n_ext n) x -> (WInv h -> wext_ok (info h) (h_next h) (set_ext x n)) ->
  Q tt (upd i (set_ext x n) h) -> wtriple L h (modifyM i (set_ext x)) Q.
Proof.
  intros Hn HL Hc Hok HQ HI h' r H Hr. rewrite (modifyM_eq _ _ _ _ Hn) in H. injection H as <- <-.
  split; [|by intros [] _]. eapply wisteps_one; [done|]. by apply wpr_ext; auto.
Qed.
Lemma wtriple_err_to_panic {A} L h p (m : M A) Q : wtriple L h m Q -> wtriple L h (err_to_panic p m) Q.
Proof.
  intros Hm HI h' r H Hr. unfold err_to_panic in H. destruct (m h) as [h1 [a|e|q|]] eqn:E; injection H as <- <-; try done.
  by apply Hm.
Qed.
Ltac wtbind R := apply (wtriple_bind _ _ _ _ _ R).

(** ** Steps without drops keep the static information *)
Lemma wprim_info l h h' i s : WInv h -> wprim l h h' -> (forall x, l <> LDrop x) -> info h i = Some s -> info h' i = Some s.
Proof.
  intros HI Hp Hd Hs. destruct Hp; try (by rewrite (info_upd i0 _ n)); try by (exfalso; eapply Hd).
  - apply info_inv in Hs as (m & Hm & <-). apply info_some. unfold allocd. cbn. rewrite lookup_insert_ne; [done|].
    pose proof (winv_lt h HI _ _ Hm). lia.
  - rewrite (info_upd p _ np); [by rewrite (info_upd c _ nc)| |done]. by rewrite lookup_upd_ne.
  - destruct (decide (p = c)) as [->|Hne].
    + assert (np = nc) by congruence. subst np. rewrite upd_upd. by rewrite (info_upd c _ nc).
    + rewrite (info_upd c _ nc); [by rewrite (info_upd p _ np)| |done]. by rewrite lookup_upd_ne.
  - destruct (decide (p = c)) as [->|Hne].
    + assert (np = nc) by congruence. subst np. rewrite upd_upd. by rewrite (info_upd c _ nc).
    + rewrite (info_upd c _ nc); [by rewrite (info_upd p _ np)| |done]. by rewrite lookup_upd_ne.
Qed.
Lemma wisteps_info L h h' i s : nodrop L -> WInv h -> wisteps L h h' -> info h i = Some s -> info h' i = Some s.
Proof.
  intros Hd HI H. induction H as [|h1 h2 h3 (l & Hl & Hp) _ IH]; [done|]. intros Hs. apply IH; [by eapply wprim_inv|].
  eapply wprim_info; [done|done| |done]. intros x ->. by eapply Hd.
Qed.

Lemma wprim_info_back l h h' i s : wprim l h h' -> info h' i = Some s -> (i < h_next h)%nat -> info h i = Some s.
Proof.
  intros Hp Hs Hlt. destruct Hp; try (by rewrite (info_upd i0 _ n) in Hs).
  - unfold info, allocd in *. cbn in Hs. by rewrite lookup_insert_ne in Hs by lia.
  - rewrite (info_upd p _ np) in Hs; [by rewrite (info_upd c _ nc) in Hs| |done]. by rewrite lookup_upd_ne.
  - destruct (decide (p = c)) as [->|Hne].
    + assert (np = nc) by congruence. subst np. rewrite upd_upd in Hs. by rewrite (info_upd c _ nc) in Hs.
    + rewrite (info_upd c _ nc) in Hs; [by rewrite (info_upd p _ np) in Hs| |done]. by rewrite lookup_upd_ne.
  - destruct (decide (p = c)) as [->|Hne].
    + assert (np = nc) by congruence. subst np. rewrite upd_upd in Hs. by rewrite (info_upd c _ nc) in Hs.
    + rewrite (info_upd c _ nc) in Hs; [by rewrite (info_upd p _ np) in Hs| |done]. by rewrite lookup_upd_ne.
  - apply info_inv in Hs as (m & Hm & <-). apply lookup_dropped in Hm as [_ Hm]. by apply info_some.
Qed.
Lemma wprim_next l h h' : wprim l h h' -> (h_next h <= h_next h')%nat.
Proof. intros Hp. destruct Hp; cbn; lia. Qed.
Lemma wisteps_next L h h' : wisteps L h h' -> (h_next h <= h_next h')%nat.
Proof. intros H. induction H as [|h1 h2 h3 (l & _ & Hp) _ IH]; [done|]. apply wprim_next in Hp. lia. Qed.
Lemma wisteps_info_back L h h' i s : wisteps L h h' -> info h' i = Some s -> (i < h_next h)%nat -> info h i = Some s.
Proof.
  intros H. induction H as [|h1 h2 h3 (l & _ & Hp) _ IH]; [done|]. intros Hs Hlt.
  eapply wprim_info_back; [done| |done]. apply IH; [done|]. apply wprim_next in Hp. lia.
Qed.

(** ** The steps of factories, parser and attribute calls *)

Lemma wfresh_ok I nx i n : n_children n = [] -> n_parent n = None -> wext_ok I nx n -> wowner_ok nx n -> name_ok n -> wnode_ok I nx i n.
Proof.
  intros Hc Hp He Ho Hn. split; [done|]. split; [done|]. split; [intros p; congruence|]. split; [|done].
  split; rewrite Hc; done.
Qed.
Definition wwdoc (h : heap) (d : id) : Prop := (d < h_next h)%nat.
Lemma wdoc_wdoc h d : WInv h -> is_doc h d -> wwdoc h d.
Proof. intros HI (s & Hs & _). apply info_inv in Hs as (n & Hn & _). by eapply winv_lt. Qed.
Lemma wdoc_owner h d : wwdoc h d -> exists d', Some d = Some d' /\ (d' < h_next h)%nat.
Proof. intros H. by exists d. Qed.
Lemma wwdoc_alloc h d n : wwdoc h d -> wwdoc (allocd n h) d.
Proof. unfold wwdoc. cbn. lia. Qed.

Lemma wtriple_new h n : n_children n = [] -> n_parent n = None ->
  (WInv h -> wext_ok (info h) (h_next h) n) -> (WInv h -> wowner_ok (h_next h) n) -> name_ok n ->
  wtriple Lb h (allocM n) (created h n).
Proof.
  intros Hc Hp He Ho Hn. apply wtriple_alloc; [by left| |done|done]. intros HI. apply wfresh_ok; auto.
Qed.
Lemma wtriple_handle {A} L h d (m : M A) Q : wtriple L h m Q -> wtriple L h (with_handle d m) Q.
Proof. intros Hm. unfold with_handle. wtbind (fun (_ : node) h1 => h1 = h); [by apply wtriple_getM|]. intros n h1 _ ->. done. Qed.
Lemma wtriple_read {A B} L h (f : heap -> res A) (k : A -> M B) Q :
  (forall a, f h = Ok a -> wtriple L h (k a) Q) -> wtriple L h (bind (lift f) k) Q.
Proof.
  intros Hk. wtbind (fun a h1 => h1 = h /\ f h = Ok a); [by apply wtriple_lift|]. intros a h1 _ [-> Ha]. auto.
Qed.
Lemma wtriple_node {B} L h i (k : node -> M B) Q :
  (forall n, h_nodes h !! i = Some n -> wtriple L h (k n) Q) -> wtriple L h (bind (getM i) k) Q.
Proof. intros Hk. apply wtriple_read. intros n Hn%get_node_ok. auto. Qed.
Lemma wtriple_inv {A} L h (m : M A) Q : (WInv h -> wtriple L h m Q) -> wtriple L h m Q.
Proof. intros H HI. by apply H. Qed.

(** Factories. *)
Section factories.
  Context (h : heap) (d : id) (Hd : wwdoc h d).
  Ltac fac := apply wtriple_new; [done|done|try done|intros HI; by apply (wdoc_owner h d)|try done].
  Lemma wt_text s : wtriple Lb h (allocM (new_text d s)) (created h (new_text d s)). Proof. fac. Qed.
  Lemma wt_cdata s : wtriple Lb h (allocM (new_cdata d s)) (created h (new_cdata d s)). Proof. fac. Qed.
  Lemma wt_comment s : wtriple Lb h (allocM (new_comment d s)) (created h (new_comment d s)). Proof. fac. Qed.
  Lemma wt_fragment : wtriple Lb h (allocM (new_document_fragment d)) (created h (new_document_fragment d)). Proof. fac. Qed.
  Lemma wt_element nm : parsed_name nm -> wtriple Lb h (allocM (new_element d nm)) (created h (new_element d nm)).
  Proof. intros Hn. fac. intros _. split; [done|]. split; [constructor|]. split; [intros k a []|]. split; [constructor|intros k u []]. Qed.
  Lemma wt_pi nm s : parsed_name nm /\ ~ xml_target (name_to_string nm) -> wtriple Lb h (allocM (new_processing_instruction d nm s)) (created h (new_processing_instruction d nm s)).
  Proof. intros Hn. fac. Qed.
  Lemma wt_ref nm : parsed_name nm -> wtriple Lb h (allocM (new_entity_reference d nm)) (created h (new_entity_reference d nm)).
  Proof. intros Hn. fac. Qed.
  Lemma wt_notation nm p s : parsed_name nm -> wtriple Lb h (allocM (new_notation (Some d) nm p s)) (created h (new_notation (Some d) nm p s)).
  Proof. intros Hn. fac. Qed.
  Lemma wt_entity nm p s : parsed_name nm -> wtriple Lb h (allocM (new_entity (Some d) nm p s)) (created h (new_entity (Some d) nm p s)).
  Proof. intros Hn. fac. Qed.
  Lemma wt_ientity nm v : parsed_name nm -> wtriple Lb h (allocM (new_internal_entity (Some d) nm v)) (created h (new_internal_entity (Some d) nm v)).
  Proof. intros Hn. fac. Qed.
  Lemma wt_attr nm v : parsed_name nm ->
    wtriple Lb h (do? a := new_attribute d nm v in allocM a) (attr_created h d nm v).
  Proof.
    intros Hn. unfold new_attribute. destruct v as [v|].
    - wtbind (fun n h1 => n = attr_node d nm [h_next h] /\ h1 = allocd (new_text d v) h).
      { wtbind (fun l h1 => l = [h_next h] /\ h1 = allocd (new_text d v) h).
        { wtbind (created h (new_text d v)); [apply wt_text|]. intros i h1 _ [-> ->]. by apply wtriple_ret. }
        intros l h1 _ [-> ->]. by apply wtriple_ret. }
      intros n h1 Hs [-> ->]. apply wtriple_alloc; [by right| |done|done]. intros HI.
      set (h1 := allocd (new_text d v) h) in *.
      assert (Hd1 : wwdoc h1 d) by (by apply wwdoc_alloc).
      assert (Htx : info h1 (h_next h) = Some (static (new_text d v))) by (apply info_some; unfold h1, allocd; cbn; by rewrite lookup_insert).
      split; [split; done|]. split; [by apply (wdoc_owner h1 d)|]. split; [intros p [=]|]. split; [|done]. split.
      + intros c [<-|[]]. split; [unfold h1; cbn; lia|]. exists (static (new_text d v)). split; [done|]. done.
      + done.
    - wtbind (fun n h1 => n = attr_node d nm [] /\ h1 = h); [wtbind (fun l h1 => l = @nil id /\ h1 = h); [by apply wtriple_ret|intros l h1 _ [-> ->]; by apply wtriple_ret]|].
      intros n h1 _ [-> ->]. apply wtriple_new; [done|done|done|intros HI; by apply (wdoc_owner h d)|done].
  Qed.
End factories.

(** Inserting a childless node. *)
Lemma wt_insert_leaf h p c r : (forall nc, h_nodes h !! c = Some nc -> n_children nc = []) ->
  wtriple Lb h (insert_before p c r) (fun a _ => a = c).
Proof.
  intros Hl HI h' x H Hr. split.
  - eapply winsert_before_steps; [done|done|done|done|]. intros nc Hc. cbn. by rewrite (Hl nc Hc).
  - intros a ->. destruct (winsert_before_inv h h' p c r _ HI H Hr) as (np & nc & _ & _ & [(e & ? & _)|([= ->] & _)]); done.
Qed.
Lemma wisteps_doc L h h' d : nodrop L -> WInv h -> wisteps L h h' -> is_doc h d -> is_doc h' d.
Proof. intros HL HI Hs (s & H1 & H2). exists s. split; [by eapply wisteps_info|done]. Qed.
Lemma wisteps_el L h h' d : nodrop L -> WInv h -> wisteps L h h' -> is_el h d -> is_el h' d.
Proof. intros HL HI Hs (s & H1 & H2). exists s. split; [by eapply wisteps_info|done]. Qed.

Lemma wt_create_document h u q t o : wtriple Lb h (create_document_with_options u q t o) (fun d h' => is_doc h' d).
Proof.
  unfold create_document_with_options. apply wtriple_inv. intros HI.
  wtbind (fun (_ : unit) h1 => h1 = h /\ forall t', t = Some t' -> exists s, info h t' = Some s).
  { destruct t as [t|]; [|by apply wtriple_ret]. unfold with_handle. apply wtriple_node. intros n Hn. apply wtriple_ret.
    split; [done|]. intros t' [= <-]. exists (static n). by apply info_some. }
  intros _ h1 _ [-> Ht]. wtbind (created h (new_document t o)).
  { apply wtriple_new; [done|done| |done|done]. intros _. split; [done|]. split; [done|]. intros k e []. }
  intros d h1 Hs1 Hc. assert (HI1 : WInv h1) by (by eapply wisteps_inv).
  assert (Hd : is_doc h1 d) by (exists (static (new_document t o)); split; [by eapply created_info|done]).
  wtbind (fun (e : option id) h2 => is_doc h2 d /\ forall e', e = Some e' -> forall nc, h_nodes h2 !! e' = Some nc -> n_children nc = []).
  { assert (Hel : forall m : M id, wtriple Lb h1 m (fun i h2 => exists nm, created h1 (new_element d nm) i h2) ->
      wtriple Lb h1 (do? e := m in ret (Some e)) (fun (e : option id) h2 => is_doc h2 d /\ forall e', e = Some e' -> forall nc, h_nodes h2 !! e' = Some nc -> n_children nc = [])).
    { intros m Hm. wtbind (fun i h2 => exists nm, created h1 (new_element d nm) i h2); [done|]. intros i h2 Hs2 (nm & Hcr).
      apply wtriple_ret. split; [eapply wisteps_doc; [apply Lb_nodrop|done|done|done]|]. intros e' [= <-]. by eapply created_leaf. }
    destruct u as [u|], q as [q|]; try apply wtriple_fail.
    - apply Hel. unfold create_element_ns. apply wtriple_handle, wtriple_read. intros nm Hnm.
      eapply wtriple_weaken; [apply wt_element; [by apply wdoc_wdoc|by eapply parsed_new_ns]|]. eauto.
    - apply Hel. unfold create_element. apply wtriple_handle, wtriple_read. intros nm Hnm.
      eapply wtriple_weaken; [apply wt_element; [by apply wdoc_wdoc|by eapply parsed_from_str]|]. eauto.
    - apply wtriple_ret. done. }
  intros e h2 Hs2 [Hd2 He]. assert (HI2 : WInv h2) by (by eapply wisteps_inv). wtbind (fun (_ : unit) h3 => is_doc h3 d).
  { destruct e as [e|]; [|by apply wtriple_ret]. wtbind (fun a (_ : heap) => a = e); [apply wt_insert_leaf; by apply He|].
    intros a h3 Hs3 _. apply wtriple_ret. eapply wisteps_doc; [apply Lb_nodrop|done|done|done]. }
  intros _ h3 _ Hd3. by apply wtriple_ret.
Qed.

Lemma wt_create_attribute_with h d name v : is_doc h d ->
  wtriple Lb h (create_attribute_with d name v) (fun a h' => exists s, info h' a = Some s).
Proof.
  intros Hd. apply wtriple_inv. intros HI. unfold create_attribute_with. apply wtriple_handle, wtriple_read. intros nm Hnm.
  eapply wtriple_weaken; [apply wt_attr; [by apply wdoc_wdoc|by eapply parsed_from_str]|]. intros a h' _ _ Ha. cbn in Ha. eauto using created_info.
Qed.

(** ** set_attribute_node *)

Lemma wt_insert_mapping h e p u : p = None \/ p = Some XMLNS_NS_ATTRIBUTE -> wtriple Lb h (insert_mapping e p u) (fun _ h' => forall j, info h' j = info h j).
Proof.
  intros Hkey. unfold insert_mapping. apply wtriple_read. intros b Hb. destruct b; cbn [negb]; [|by apply wtriple_ret].
  apply wtriple_node. intros n Hn. destruct (is_type NElement n); [|apply wtriple_fail].
  destruct (n_ext n) as [| | | |a ns| |] eqn:Hx; try apply wtriple_fail.
  eapply wtriple_ext; [done|done|rewrite Hx; constructor| |by apply info_ext].
  intros HI. destruct (winv_node h HI e n Hn) as (He & _). unfold wext_ok in *. rewrite Hx in He. cbn.
  destruct He as (H1 & H2 & H3 & H4 & H5). split_and!; [done..|by apply hm_insert_nodup|].
  intros k x Hin. apply hm_insert_in in Hin as [[-> _]|Hin]; [done|by eapply H5].
Qed.

Lemma wt_set_attribute_node E h e a : wtriple Lb h (set_attribute_node E e a) (fun r _ => r = a).
Proof.
  unfold set_attribute_node. apply wtriple_inv. intros HI. apply wtriple_node. intros ne He. apply wtriple_node. intros na Ha.
  destruct (is_type NElement ne && is_type NAttribute na) eqn:Ht; cbn [negb]; [|apply wtriple_fail].
  apply andb_true_iff in Ht as [Hte%is_type_true Hta%is_type_true].
  apply wtriple_read. intros [] Hcsd.
  destruct (wcsd_ok h e a ne na HI He Ha ltac:(congruence) ltac:(congruence) Hcsd) as [_ Ho].
  specialize (Ho ltac:(congruence)).
  assert (Hea : e <> a) by congruence.
  wtbind (fun (_ : unit) h1 => forall j, info h1 j = info h j).
  { destruct (n_ext na) as [|o| | | | |] eqn:Hx; try apply wtriple_panic.
    eapply wtriple_ext; [done|done|rewrite Hx; constructor| |by apply info_ext].
    intros _. split; [done|]. intros x [= <-]. split; [by eapply winv_lt|]. intros s Hs.
    rewrite (info_some _ _ _ He) in Hs. by injection Hs as <-. }
  intros _ h1 Hs1 Hi1. assert (HI1 : WInv h1) by (by eapply wisteps_inv).
  wtbind (fun (_ : unit) h2 => forall j, info h2 j = info h j).
  { destruct (is_namespace_attribute (n_name na)) eqn:Hisns; [|by apply wtriple_ret].
    apply wtriple_read. intros v _. eapply wtriple_weaken; [apply wt_insert_mapping; by apply ns_attribute_prefix|]. intros [] h2 _ _ H2 j. by rewrite H2. }
  intros _ h2 Hs2 Hi2. assert (HI2 : WInv h2) by (by eapply wisteps_inv).
  apply wtriple_node. intros ne2 He2.
  assert (Hse : static ne2 = static ne).
  { pose proof (Hi2 e) as Hx. rewrite (info_some _ _ _ He2), (info_some _ _ _ He) in Hx. congruence. }
  destruct (n_ext ne2) as [| | | |attrs nss| |] eqn:Hx; try apply wtriple_fail.
  wtbind (fun (_ : unit) h3 => forall j, info h3 j = info h j).
  { eapply wtriple_ext; [done|done|rewrite Hx; constructor| |intros j; rewrite (info_ext e ne2) by done; apply Hi2].
    intros _. destruct (winv_node h2 HI2 e ne2 He2) as (Hex & _). unfold wext_ok in Hex |- *. rewrite Hx in Hex. cbn.
    destruct Hex as (H1 & H2 & H3 & H4). split; [done|]. split; [by apply hm_insert_nodup|]. split; [|done].
    intros k x Hin. apply hm_insert_in in Hin as [[-> ->]|Hin]; [|by apply H3].
    exists (static na). rewrite Hi2. split; [by apply info_some|]. split; [done|]. split; [done|].
    injection Hse as _ _ ->. cbn. done. }
  intros _ h3 Hs3 Hi3. assert (HI3 : WInv h3) by (by eapply wisteps_inv).
  apply wtriple_read. intros d Hd. destruct (bool_decide (d = _)); [apply wtriple_panic|]. apply wtriple_node. intros nd Hnd.
  destruct (is_id_attribute _ _); [|by apply wtriple_ret].
  destruct (n_ext nd) as [| |decl dt m o| | | |] eqn:Hxd; try by apply wtriple_ret.
  apply wtriple_read. intros v _. destruct (hm_get v m) eqn:Hg; [apply wtriple_fail|].
  wtbind (fun (_ : unit) (_ : heap) => True).
  { eapply wtriple_ext; [done|done|rewrite Hxd; by constructor| |done].
    intros _. destruct (winv_node h3 HI3 d nd Hnd) as (Hex & _). unfold wext_ok in Hex |- *. rewrite Hxd in Hex. cbn.
    destruct Hex as (H1 & H2 & H3). split; [done|]. split; [done|]. intros k x Hin.
    apply hm_insert_in in Hin as [[-> ->]|Hin]; [|by eapply H3].
    pose proof (Hi3 e) as Hie. rewrite (info_some _ _ _ He) in Hie. split.
    - apply info_inv in Hie as (m' & Hm' & _). by eapply winv_lt.
    - intros s Hs. rewrite Hie in Hs. injection Hs as <-. done. }
  intros _ h4 _ _. by apply wtriple_ret.
Qed.

Lemma wowner_wdoc h i n d : WInv h -> h_nodes h !! i = Some n -> n_owner n = Some d -> wwdoc h d.
Proof.
  intros HI Hn Ho. destruct (winv_node h HI i n Hn) as (_ & H & _). unfold wowner_ok in H. rewrite Ho in H.
  destruct (n_type n); try done; destruct H as (d' & [= ->] & Hlt); done.
Qed.
Lemma wt_set_new_attribute E h e nm v : parsed_name nm ->
  wtriple Lb h (set_new_attribute E e nm v) (fun _ _ => True).
Proof.
  intros Hnm. apply wtriple_inv. intros HI. unfold set_new_attribute. apply wtriple_node. intros ne Hne. apply wtriple_read. intros d Hd.
  destruct (n_owner ne) as [d'|] eqn:Ho; [|done]. injection Hd as <-.
  assert (Hw : wwdoc h d') by (by eapply wowner_wdoc).
  apply wtriple_assoc.
  wtbind (attr_created h d' nm (Some v)); [by apply wt_attr|]. intros a h1 _ _.
  wtbind (fun r (_ : heap) => r = a); [apply wt_set_attribute_node|]. intros _ h2 _ _. by apply wtriple_ret.
Qed.

(** ** Which steps each call may take *)
Definition wlab (o : op) (l : lab) : Prop := match l with LDrop l => o = ODrop l | _ => True end.
Lemma Lb_wlab o l : Lb l -> wlab o l.
Proof. by destruct l. Qed.
Lemma wtriple_Lb {A} o h (m : M A) Q : wtriple Lb h m Q -> wtriple (wlab o) h m Q.
Proof. apply wtriple_labels. intros l. by apply Lb_wlab. Qed.

(** ** Removals *)
Lemma wt_remove_child (L : lab -> Prop) h p c : (forall np, h_nodes h !! p = Some np -> L (LRemove p (n_type np) c)) ->
  wtriple L h (remove_child p c) (fun r _ => r = c).
Proof.
  intros HL HI h' r H Hr. destruct (wremove_child_inv h h' p c r HI H Hr) as (np & Hp & [(_ & -> & ->)|(nc & k & Hc & Hk & Hne & -> & ->)]).
  - split; [apply wisteps_nil|]. by intros a [=].
  - split; [|by intros a [= <-]]. eapply wisteps_one; [by apply HL|]. by apply wpr_remove.
Qed.
Lemma wt_insert (L : lab -> Prop) h p c r : (forall q, L (LDetach q c)) -> (forall leaf, L (LAttach p c leaf)) ->
  wtriple L h (insert_before p c r) (fun a _ => a = c).
Proof.
  intros H1 H2 HI h' x H Hr. split; [eapply winsert_before_steps; eauto|].
  intros a ->. destruct (winsert_before_inv h h' p c r _ HI H Hr) as (np & nc & _ & _ & [(e & ? & _)|([= ->] & _)]); done.
Qed.
Lemma wt_append_data (L : lab -> Prop) h i x : L (LValue i) ->
  wtriple L h (append_data i x) (fun _ h' => forall j, info h' j = info h j).
Proof.
  intros HL. unfold append_data. destruct (is_nil x); [by apply wtriple_ret|].
  apply wtriple_value; [done|eauto|]. intros n Hn. by apply (info_upd i _ n).
Qed.

Lemma wt_normalize h i : wtriple (wlab (ONormalize i)) h (normalize i) (fun _ _ => True).
Proof.
  unfold normalize. apply wtriple_node. intros ni Hi.
  set (L := wlab (ONormalize i)).
  assert (G : forall l h1, info h1 i = Some (static ni) -> wtriple L h1 (iterM (normalize_step i) l) (fun _ _ => True)).
  { induction l as [|c l IH]; intros h1 Hi1; cbn [iterM]; [by apply wtriple_ret|].
    apply wtriple_inv. intros HI1.
    assert (Hrm : forall h2, info h2 i = Some (static ni) -> wtriple L h2 (err_to_panic PExplicit (remove_child i c)) (fun _ _ => True)).
    { intros h2 Hi2. apply wtriple_err_to_panic. eapply wtriple_weaken; [apply wt_remove_child|done].
      done. }
    wtbind (fun (_ : unit) (_ : heap) => True).
    - unfold normalize_step. apply wtriple_node. intros nc Hc. destruct (is_type NText nc); [|by apply wtriple_ret].
      apply wtriple_read. intros len _. destruct (_ =? _)%N.
      + wtbind (fun (_ : id) (_ : heap) => True); [by apply Hrm|]. intros. by apply wtriple_ret.
      + apply wtriple_read. intros [p|] _; [|by apply wtriple_ret]. apply wtriple_node. intros np Hp.
        destruct (is_type NText np); [|by apply wtriple_ret]. apply wtriple_read. intros v _.
        wtbind (fun (_ : unit) h2 => forall j, info h2 j = info h1 j); [apply wtriple_err_to_panic, wt_append_data; done|].
        intros _ h2 _ Hi2. wtbind (fun (_ : id) (_ : heap) => True); [apply Hrm; by rewrite Hi2|]. intros. by apply wtriple_ret.
    - intros _ h2 Hs _. apply IH. eapply wisteps_info; [|done|done|done]. intros x; cbn; intros [=]. }
  apply G. by apply info_some.
Qed.

Lemma wt_replace_child h p c o : wtriple (wlab (OReplaceChild p c o)) h (replace_child p c o) (fun r _ => r = o).
Proof.
  unfold replace_child. apply wtriple_node. intros np Hp. apply wtriple_node. intros nc Hc.
  destruct (negb _); [apply wtriple_fail|]. destruct (bool_decide _); [|apply wtriple_fail].
  apply wtriple_read. intros next _. wtbind (fun r (_ : heap) => r = o).
  - apply wt_remove_child. done.
  - intros r h1 _ ->. wtbind (fun a (_ : heap) => a = c).
    + apply wt_insert; cbn; done.
    + intros _ h2 _ _. by apply wtriple_ret.
Qed.

(** ** Clones *)
Lemma wmapM_triple {A B} L h (f : A -> M B) l (P : A -> B -> heap -> Prop) :
  WInv h ->
  (forall a h1, wisteps L h h1 -> WInv h1 -> In a l -> wtriple L h1 (f a) (P a)) ->
  (forall a b h1 h2, wisteps L h1 h2 -> WInv h1 -> P a b h1 -> P a b h2) ->
  wtriple L h (mapM_ f l) (fun r h' => Forall2 (fun a b => P a b h') l r).
Proof.
  intros HI Hf Hm. revert h HI Hf. induction l as [|a l IH]; intros h HI Hf; cbn [mapM_]; [apply wtriple_ret; constructor|].
  wtbind (P a). { apply Hf; [apply wisteps_nil|done|by left]. }
  intros b h1 Hs1 Hb. assert (HI1 : WInv h1) by (by eapply wisteps_inv).
  wtbind (fun r h' => Forall2 (fun a b => P a b h') l r /\ P a b h').
  { eapply wtriple_weaken; [apply IH; [done|]|].
    - intros a' h2 Hs2 HI2 Hin. apply Hf; [by eapply wisteps_app|done|by right].
    - intros r h2 Hs2 HI2 Hr. split; [done|]. by eapply Hm. }
  intros r h2 Hs2 [Hr Hb2]. apply wtriple_ret. by constructor.
Qed.

Lemma wt_clone_rec (L : lab -> Prop) deep : nodrop L -> (forall n, n_children n = [] \/ deep = true -> L (LAlloc n)) ->
  forall k h i, wtriple L h (clone_rec k deep i) (fun a h' => info h' a = info h i).
Proof.
  intros Hnd HL. induction k as [|k IH]; intros h i; [intros _ h' r [= <- <-] []|].
  cbn [clone_rec]. apply wtriple_inv. intros HI. apply wtriple_node. intros n Hn.
  wtbind (fun r h' => Forall2 (fun a b => info h' b = info h a) (if deep then n_children n else []) r).
  { destruct deep; [|apply wtriple_ret; constructor].
    eapply wtriple_weaken; [apply (wmapM_triple L h (clone_rec k true) (n_children n)
       (fun a b h' => info h' b = info h a /\ exists s, info h a = Some s)); [done|..]|].
    - intros a h1 Hs1 HI1 Hin.
      assert (Hal : exists s, info h a = Some s).
      { destruct (winv_node h HI i n Hn) as (_ & _ & _ & [H4 _] & _). destruct (H4 a Hin) as (_ & s & Hs & _). eauto. }
      destruct Hal as [s Hs].
      eapply wtriple_weaken; [apply IH|]. intros b h2 Hs2 HI2 Hb. rewrite Hb. split; [|eauto]. rewrite Hs. by apply (wisteps_info L h h1).
    - intros a b h1 h2 Hs HI1 [H1 (s & H2)]. split; [|eauto]. rewrite H2 in *. by apply (wisteps_info L h1 h2).
    - intros r h' _ _ H. apply (Forall2_impl _ _ _ _ H). by intros x y [? _]. }
  intros r h1 Hs1 Hr. assert (HI1 : WInv h1) by (by eapply wisteps_inv).
  set (n' := mkNode (n_type n) (n_name n) (n_value n) None (n_owner n) r (n_ext n)).
  assert (Hnok : wnode_ok (info h) (h_next h) i n) by (by apply winv_node).
  assert (Hin1 : info h1 i = Some (static n)) by (apply (wisteps_info L h h1); [done|done|done|by apply info_some]).
  assert (Hn1 : exists n1, h_nodes h1 !! i = Some n1 /\ static n1 = static n) by (by apply info_inv).
  assert (Hch : forall b, In b r -> exists a s, In a (n_children n) /\ info h1 b = Some s /\ info h a = Some s).
  { intros b Hb%elem_of_list_In%elem_of_list_lookup_1. destruct Hb as [j Hb].
    destruct (Forall2_lookup_r _ _ _ _ _ Hr Hb) as (a & Ha & Hab).
    assert (Hin : In a (n_children n)).
    { destruct deep; [|by rewrite lookup_nil in Ha]. by eapply elem_of_list_In, elem_of_list_lookup_2. }
    destruct Hnok as (_ & _ & _ & [H4 _] & _). destruct (H4 a Hin) as (_ & s & Hs & _). exists a, s. split; [done|]. by rewrite Hab. }
  apply wtriple_alloc.
  - apply HL. cbn. destruct deep; [by right|]. left. by inversion Hr.
  - intros _. destruct Hnok as (He & Ho & Hp & [Hc Hone] & Hnm).
    (* the same node without children is fine in [h1] *)
    assert (Hbase : wnode_ok (info h1) (h_next h1) (h_next h1) (mkNode (n_type n) (n_name n) (n_value n) None (n_owner n) [] (n_ext n))).
    { apply (wnode_ok_mono (info h) _ (h_next h)); [| |by eapply wisteps_next|].
      - intros x s _ Hs. by apply (wisteps_info L h h1).
      - intros j s Hj Hlt. by eapply wisteps_info_back.
      - apply wfresh_ok; [done|done|exact He|exact Ho|exact Hnm]. }
    destruct Hbase as (B1 & B2 & _ & _ & B5). split; [exact B1|]. split; [exact B2|]. split; [intros p [=]|]. split; [|exact B5].
    split.
    + intros b Hb. destruct (Hch b Hb) as (a & s & Hin & Hb1 & Ha). destruct (Hc a Hin) as (_ & s' & Hs' & Hlk).
      assert (s' = s) by congruence. subst s'. split; [|by exists s].
      apply info_inv in Hb1 as (nb & Hnb & _). pose proof (winv_lt h1 HI1 _ _ Hnb). lia.
    + cbn. intros Ht j1 j2 b1 b2 s1 s2 Hb1 Hb2 Hs1' Hs2' Ht1 Ht2.
      destruct (Forall2_lookup_r _ _ _ _ _ Hr Hb1) as (a1 & Ha1 & Hab1). destruct (Forall2_lookup_r _ _ _ _ _ Hr Hb2) as (a2 & Ha2 & Hab2).
      destruct deep; [|by rewrite lookup_nil in Ha1]. rewrite Hab1 in Hs1'. rewrite Hab2 in Hs2'. by eapply (Hone Ht j1 j2 a1 a2 s1 s2).
  - done.
  - rewrite (info_some _ _ _ Hn). unfold info, allocd. cbn. by rewrite lookup_insert.
Qed.

(** ** Values *)
Lemma wt_set_value (L : lab -> Prop) h i v : L (LValue i) -> wtriple L h (modifyM i (set_value v)) (fun _ h' => forall j, info h' j = info h j).
Proof. intros HL. apply wtriple_value; [done|eauto|]. intros n Hn. by apply (info_upd i _ n). Qed.
Lemma wt_replace_data (L : lab -> Prop) E h i off cnt x : L (LValue i) ->
  wtriple L h (replace_data E i off cnt x) (fun _ h' => forall j, info h' j = info h j).
Proof.
  intros HL. unfold replace_data. apply wtriple_node. intros n Hn. apply wtriple_read. intros v _. by apply wt_set_value.
Qed.
Lemma wt_insert_data (L : lab -> Prop) E h i off x : L (LValue i) ->
  wtriple L h (insert_data E i off x) (fun _ h' => forall j, info h' j = info h j).
Proof. intros HL. unfold insert_data. destruct (is_nil x); [by apply wtriple_ret|]. by apply wt_replace_data. Qed.
Lemma wt_delete_data (L : lab -> Prop) E h i off cnt : L (LValue i) ->
  wtriple L h (delete_data E i off cnt) (fun _ h' => forall j, info h' j = info h j).
Proof.
  intros HL. unfold delete_data. apply wtriple_read. intros e _. destruct (_ =? _)%N; [by apply wtriple_ret|]. by apply wt_replace_data.
Qed.


Lemma wt_split E h i off : wtriple (wlab (OSplit i off)) h (DomOps.split E i off) (fun _ _ => True).
Proof.
  unfold DomOps.split. apply wtriple_node. intros n Hn. destruct (negb _); [apply wtriple_fail|]. apply wtriple_read. intros len _.
  wtbind (fun (_ : str) (_ : heap) => True).
  { destruct (_ <=? _)%N; [by apply wtriple_ret|]. apply wtriple_read. intros s _.
    wtbind (fun (_ : unit) (_ : heap) => True); [|intros; by apply wtriple_ret].
    eapply wtriple_weaken; [by apply wt_delete_data|done]. }
  intros s h1 _ _. apply wtriple_inv. intros HI1. apply wtriple_node. intros n1 Hn1.
  wtbind (fun n' h2 => h2 = h1 /\ wtriple Lb h1 (allocM n') (created h1 n') /\ n_children n' = []).
  { destruct (n_type n1) eqn:Ht; try apply wtriple_fail.
    - apply wtriple_read. intros d Hd. destruct (n_owner n1) as [d'|] eqn:Ho; [|done]. injection Hd as <-. apply wtriple_ret.
      split; [done|]. split; [|done]. apply wt_text. eapply wowner_wdoc; done.
    - apply wtriple_read. intros d Hd. destruct (n_owner n1) as [d'|] eqn:Ho; [|done]. injection Hd as <-. apply wtriple_ret.
      split; [done|]. split; [|done]. apply wt_cdata. eapply wowner_wdoc; done. }
  intros n' h2 _ (-> & Hal & Hnil). wtbind (created h1 n'); [by apply wtriple_Lb|]. intros new h3 _ Hcr.
  apply wtriple_read. intros [p|] _; [|by apply wtriple_ret]. apply wtriple_read. intros next _.
  wtbind (fun a (_ : heap) => a = new); [|intros; by apply wtriple_ret]. apply wtriple_Lb. apply wt_insert_leaf.
  by eapply created_leaf.
Qed.

(** ** Attributes *)
Lemma wt_attr_clear (L : lab -> Prop) h i n : h_nodes h !! i = Some n -> L (LClear i) ->
  wtriple L h (attr_unset_value i) (fun _ h' => forall j, info h' j = info h j).
Proof.
  intros Hn HL HI h' r H Hr. unfold attr_unset_value in H. rewrite (modifyM_eq _ _ _ _ Hn) in H. injection H as <- <-.
  split; [|intros a _; by apply (info_upd i _ n)]. eapply wisteps_one; [done|]. by apply wpr_clear.
Qed.
Lemma wt_attr_set_value h i v n : h_nodes h !! i = Some n ->
  wtriple (wlab (OAttrSetValue i v)) h (attr_set_value i v) (fun _ _ => True).
Proof.
  intros Hn. unfold attr_set_value. wtbind (fun (_ : unit) h' => forall j, info h' j = info h j); [by eapply wt_attr_clear|].
  intros _ h1 _ Hi1. apply wtriple_inv. intros HI1. apply wtriple_read. intros d Hd. apply wtriple_node. intros nd Hnd.
  destruct (is_type NDocument nd) eqn:Htd; cbn [negb]; [|apply wtriple_panic]. apply is_type_true in Htd.
  wtbind (created h1 (new_text d v)).
  { apply wtriple_Lb. apply wt_text. apply wdoc_wdoc; [done|]. exists (static nd). split; [by apply info_some|done]. }
  intros t h2 _ Hcr. wtbind (fun a (_ : heap) => a = t); [|intros; by apply wtriple_ret].
  apply wtriple_Lb. apply wt_insert_leaf. by eapply created_leaf.
Qed.
Lemma wt_remove_attribute_node (L : lab -> Prop) h e a : (forall x y z, L (LExt x y z)) ->
  (forall na, h_nodes h !! a = Some na -> L (LUnparent a (n_type na))) ->
  wtriple L h (remove_attribute_node e a) (fun r _ => r = a).
Proof.
  intros HL1 HL2. unfold remove_attribute_node. apply wtriple_inv. intros HI. apply wtriple_node. intros ne He.
  destruct (is_type NElement ne); [|apply wtriple_fail].
  destruct (n_ext ne) as [| | | |attrs nss| |] eqn:Hx; try apply wtriple_fail.
  destruct (decide (a = e)) as [->|Hne]; [rewrite bool_decide_true by done; apply wtriple_panic|].
  rewrite bool_decide_false by done. apply wtriple_node. intros na Ha.
  wtbind (fun (_ : unit) h1 => h_nodes h1 !! a = Some na).
  { eapply wtriple_ext; [done|done|rewrite Hx; constructor| |by rewrite lookup_upd_ne].
    intros _. destruct (winv_node h HI e ne He) as (Hex & _). unfold wext_ok in Hex |- *. rewrite Hx in Hex. cbn.
    destruct Hex as (H1 & H2 & H3 & H4). split; [done|]. split; [by apply hm_remove_nodup|]. split; [|done].
    intros k x Hin. apply hm_remove_in in Hin. by apply H3. }
  intros _ h1 _ Ha1. wtbind (fun (_ : unit) (_ : heap) => True); [|intros; by apply wtriple_ret].
  intros HI1 h' r H Hr. rewrite (modifyM_eq _ _ _ _ Ha1) in H. injection H as <- <-. split; [|done].
  eapply wisteps_one; [by apply HL2|]. by apply wpr_unparent.
Qed.
Lemma wt_remove_found (o : op) h e (f : heap -> res (option id)) :
  wtriple (wlab o) h (do? a := lift f in match a with None => ret tt | Some a => do? _ := remove_attribute_node e a in ret tt end)
    (fun _ _ => True).
Proof.
  apply wtriple_read. intros [a|] Ha; [|by apply wtriple_ret].
  wtbind (fun r (_ : heap) => r = a); [|intros; by apply wtriple_ret]. by apply wt_remove_attribute_node.
Qed.

(** ** The parser *)
Definition wptriple {A} (L : lab -> Prop) (h : heap) (m : PM A) (Q : A -> heap -> Prop) : Prop :=
  WInv h -> forall h' r, m h = (h', r) -> preturned r -> wisteps L h h' /\ forall a, r = POk a -> Q a h'.
Lemma wptriple_bind {A B} L h (m : PM A) (k : A -> PM B) Q R :
  wptriple L h m R -> (forall a h1, wisteps L h h1 -> R a h1 -> wptriple L h1 (k a) Q) -> wptriple L h (pbind m k) Q.
Proof.
  intros Hm Hk HI h' r H Hr. unfold pbind in H. destruct (m h) as [h1 [a|e|p|]] eqn:E.
  - destruct (Hm HI _ _ E I) as [Hs HR]. specialize (HR a eq_refl).
    destruct (Hk a h1 Hs HR (wisteps_inv _ _ _ Hs HI) _ _ H Hr) as [Hs2 HQ]. split; [by eapply wisteps_app|done].
  - injection H as <- <-. destruct (Hm HI _ _ E I) as [Hs _]. split; [done|]. by intros a [=].
  - by injection H as <- <-.
  - by injection H as <- <-.
Qed.
Lemma wptriple_ret {A} L h (a : A) (Q : A -> heap -> Prop) : Q a h -> wptriple L h (pret a) Q.
Proof. intros HQ _ h' r [= <- <-] _. split; [apply wisteps_nil|]. by intros ? [= <-]. Qed.
Lemma wptriple_fail {A} L h e (Q : A -> heap -> Prop) : wptriple L h (pfail e) Q.
Proof. intros _ h' r [= <- <-] _. split; [apply wisteps_nil|]. done. Qed.
Lemma wptriple_dom {A} L h (m : M A) Q : wtriple L h m Q -> wptriple L h (pdom m) Q.
Proof.
  intros Hm HI h' r H Hr. unfold pdom in H. destruct (m h) as [h1 [a|e|p|]] eqn:E; injection H as <- <-; try done.
  - destruct (Hm HI _ _ E I) as [Hs HR]. split; [done|]. intros b [= <-]. auto.
  - destruct (Hm HI _ _ E I) as [Hs _]. split; [done|]. by intros b [=].
Qed.
Lemma wptriple_unwrap {A} L h (m : M A) Q : wtriple L h m Q -> wptriple L h (pdom_unwrap m) Q.
Proof. intros Hm. by apply wptriple_dom, wtriple_err_to_panic. Qed.
Lemma wptriple_decode L h o (Q : str -> heap -> Prop) : (forall s, Q s h) -> wptriple L h (pdecode o) Q.
Proof. intros HQ. destruct o; [by apply wptriple_ret|apply wptriple_fail]. Qed.
Lemma wptriple_punwrap {A} L h (o : option A) (Q : A -> heap -> Prop) : (forall s, Q s h) -> wptriple L h (punwrap o) Q.
Proof. intros HQ. destruct o; [by apply wptriple_ret|]. by intros _ h' r [= <- <-]. Qed.
Lemma wptriple_weaken {A} L h (m : PM A) (Q R : A -> heap -> Prop) :
  wptriple L h m Q -> (forall a h', wisteps L h h' -> WInv h' -> Q a h' -> R a h') -> wptriple L h m R.
Proof.
  intros Hm HQ HI h' r H Hr. destruct (Hm HI _ _ H Hr) as [Hs HR]. split; [done|]. intros a Ha.
  apply HQ; [done|by eapply wisteps_inv|auto].
Qed.
Lemma wptriple_inv {A} L h (m : PM A) Q : (WInv h -> wptriple L h m Q) -> wptriple L h m Q.
Proof. intros H HI. by apply H. Qed.
Ltac wpbind R := apply (wptriple_bind _ _ _ _ _ R).

Section parse.
  Context (E : env) (doc : id).
  Lemma wp_attributes el : forall l h, is_doc h doc -> wptriple Lb h (handle_attributes E doc el l) (fun _ _ => True).
  Proof.
    induction l as [|[name value| |] l IH]; intros h Hd; cbn [handle_attributes].
    - by apply wptriple_ret.
    - apply wptriple_inv. intros HI. wpbind (fun (_ : id) h1 => is_doc h1 doc).
      { apply wptriple_dom. eapply wtriple_weaken; [by apply wt_create_attribute_with|]. intros a h1 Hs _ _.
        eapply wisteps_doc; [apply Lb_nodrop|done|done|done]. }
      intros a h1 _ Hd1. apply wptriple_inv. intros HI1. wpbind (fun (_ : id) h2 => is_doc h2 doc).
      { apply wptriple_dom. eapply wtriple_weaken; [apply wt_set_attribute_node|]. intros a' h2 Hs _ _.
        eapply wisteps_doc; [apply Lb_nodrop|exact HI1|done|done]. }
      intros _ h2 _ Hd2. by apply IH.
    - by intros _ h' r [= <- <-].
    - apply wptriple_fail.
  Qed.
  Lemma wt_create_element h name : is_doc h doc -> wtriple Lb h (create_element doc name) (fun e h' => exists nm, created h (new_element doc nm) e h').
  Proof.
    intros Hd. apply wtriple_inv. intros HI. unfold create_element. apply wtriple_handle, wtriple_read. intros nm Hnm.
    eapply wtriple_weaken; [apply wt_element; [by apply wdoc_wdoc|by eapply parsed_from_str]|]. eauto.
  Qed.
  Lemma wp_start h parent name attrs : is_doc h doc -> wptriple Lb h (handle_start E doc parent name attrs) (fun _ _ => True).
  Proof.
    intros Hd. apply wptriple_inv. intros HI. unfold handle_start. wpbind (fun (_ : str) h1 => h1 = h); [by apply wptriple_decode|].
    intros nm h1 _ ->. wpbind (fun e h' => exists nm, created h (new_element doc nm) e h'); [by apply wptriple_unwrap, wt_create_element|].
    intros e h1 Hs1 (nm' & Hcr). wpbind (fun a (_ : heap) => a = e).
    { apply wptriple_dom, wt_insert_leaf. by eapply created_leaf. }
    intros a h2 Hs2 ->. wpbind (fun (_ : unit) (_ : heap) => True); [|intros; by apply wptriple_ret].
    apply wp_attributes. eapply wisteps_doc; [apply Lb_nodrop|exact HI|by eapply wisteps_app|done].
  Qed.
  Lemma wp_leaf h parent (m : PM id) n : WInv h -> wptriple Lb h m (created h n) -> n_children n = [] ->
    wptriple Lb h (dop? x := m in pdom (append_child parent x)) (fun _ _ => True).
  Proof.
    intros HI Hm Hn. wpbind (created h n); [done|]. intros x h1 _ Hcr. eapply wptriple_weaken; [apply wptriple_dom, wt_insert_leaf; by eapply created_leaf|done].
  Qed.
  Lemma wp_comment h parent t : is_doc h doc -> wptriple Lb h (handle_comment doc parent t) (fun _ _ => True).
  Proof.
    intros Hd. apply wptriple_inv. intros HI. unfold handle_comment. wpbind (fun (_ : str) h1 => h1 = h); [by apply wptriple_decode|].
    intros s h1 _ ->. eapply wp_leaf; [done|apply wptriple_dom, wtriple_handle, wt_comment; by apply wdoc_wdoc|done].
  Qed.
  Lemma wp_text h parent t : is_doc h doc -> wptriple Lb h (handle_text doc parent t) (fun _ _ => True).
  Proof.
    intros Hd. apply wptriple_inv. intros HI. unfold handle_text. wpbind (fun (_ : str) h1 => h1 = h); [by apply wptriple_decode|].
    intros s h1 _ ->. eapply wp_leaf; [done|apply wptriple_dom, wtriple_handle, wt_text; by apply wdoc_wdoc|done].
  Qed.
  Lemma wp_cdata h parent t : is_doc h doc -> wptriple Lb h (handle_cdata doc parent t) (fun _ _ => True).
  Proof.
    intros Hd. apply wptriple_inv. intros HI. unfold handle_cdata. wpbind (fun (_ : str) h1 => h1 = h); [by apply wptriple_decode|].
    intros s h1 _ ->. eapply wp_leaf; [done|apply wptriple_unwrap, wtriple_handle, wt_cdata; by apply wdoc_wdoc|done].
  Qed.
  Lemma wt_create_pi h t s : is_doc h doc -> wtriple Lb h (create_processing_instruction doc t s)
    (fun i h' => exists nm, created h (new_processing_instruction doc nm s) i h').
  Proof.
    intros Hd. apply wtriple_inv. intros HI. unfold create_processing_instruction. apply wtriple_handle. destruct (str_eqb _ _) eqn:Hxt; [apply wtriple_fail|].
    apply wtriple_read. intros nm Hnm. eapply wtriple_weaken; [apply wt_pi; [by apply wdoc_wdoc|by eapply pi_named]|]. eauto.
  Qed.
  Lemma wp_pi h parent t : is_doc h doc -> wptriple Lb h (handle_pi doc parent t) (fun _ _ => True).
  Proof.
    intros Hd. apply wptriple_inv. intros HI. unfold handle_pi. wpbind (fun (_ : str) h1 => h1 = h); [by apply wptriple_decode|].
    intros s h1 _ ->. destruct (pi_parts s) as [target d]. wpbind (fun i h' => exists nm, created h (new_processing_instruction doc nm d) i h').
    { by apply wptriple_unwrap, wt_create_pi. }
    intros x h1 _ (nm & Hcr). eapply wptriple_weaken; [apply wptriple_dom, wt_insert_leaf; by eapply created_leaf|done].
  Qed.
  Lemma wt_set_decl (L : lab -> Prop) h d x : (forall x y z, L (LExt x y z)) -> wtriple L h (set_xml_declaration d x) (fun _ _ => True).
  Proof.
    intros HL. unfold set_xml_declaration. apply wtriple_inv. intros HI. apply wtriple_node. intros n Hn.
    destruct (n_ext n) as [| |dc dt m o| | | |] eqn:Hx; try apply wtriple_fail.
    eapply wtriple_ext; [done|done|rewrite Hx; constructor| |done]. intros _.
    destruct (winv_node h HI d n Hn) as (Hex & _). unfold wext_ok in Hex |- *. rewrite Hx in Hex. done.
  Qed.
  Lemma wp_decl h v e s : wptriple Lb h (handle_decl doc v e s) (fun _ _ => True).
  Proof.
    unfold handle_decl. wpbind (fun (_ : option xml_decl) h1 => h1 = h); [by apply wptriple_dom, wtriple_lift|].
    intros [d|] h1 _ ->; [apply wptriple_fail|]. wpbind (fun (_ : str * option str * option bool) (_ : heap) => True).
    { unfold make_decl. wpbind (fun (_ : str) (_ : heap) => True); [by apply wptriple_punwrap|]. intros v1 h1 _ _.
      wpbind (fun (_ : str) (_ : heap) => True).
      { intros _ h' r H Hr. destruct (unquote v1); injection H as <- <-; try done; (split; [apply wisteps_nil|done]). }
      intros v2 h2 _ _. wpbind (fun (_ : option str) (_ : heap) => True).
      { destruct e as [o|]; [|by apply wptriple_ret]. wpbind (fun (_ : str) (_ : heap) => True); [by apply wptriple_punwrap|]. intros; by apply wptriple_ret. }
      intros e1 h3 _ _. wpbind (fun (_ : option bool) (_ : heap) => True).
      { destruct s as [o|]; [|by apply wptriple_ret]. wpbind (fun (_ : str) (_ : heap) => True); [by apply wptriple_punwrap|]. intros; by apply wptriple_ret. }
      intros; by apply wptriple_ret. }
    intros r h1 _ _. wpbind (fun (_ : xml_version) (_ : heap) => True); [by apply wptriple_punwrap|]. intros v1 h2 _ _.
    wpbind (fun (_ : xml_decl) (_ : heap) => True); [by apply wptriple_dom, wtriple_lift|]. intros d h3 _ _.
    by apply wptriple_dom, wt_set_decl.
  Qed.

  Lemma wp_step {A B} (m : PM A) h (h' : heap) (r : pres B) (F : heap -> heap * pres B) :
    wptriple Lb h m (fun _ _ => True) -> WInv h -> is_doc h doc ->
    (forall h1, WInv h1 -> is_doc h1 doc -> forall h' r, F h1 = (h', r) -> preturned r -> wisteps Lb h1 h') ->
    match m h with
    | (h1, POk _) => F h1
    | (h1, PErr e) => (h1, PErr e)
    | (h1, PPanic p) => (h1, PPanic p)
    | (h1, PDiverge) => (h1, PDiverge)
    end = (h', r) -> preturned r -> wisteps Lb h h'.
  Proof.
    intros Hm HI Hd HF H Hr. destruct (m h) as [h1 [a|e|p|]] eqn:Em.
    - destruct (Hm HI _ _ Em Logic.I) as [Hs _]. eapply wisteps_app; [exact Hs|]. eapply HF; [by eapply wisteps_inv| |exact H|done].
      eapply wisteps_doc; [apply Lb_nodrop|exact HI|exact Hs|done].
    - injection H as <- <-. by destruct (Hm HI _ _ Em Logic.I) as [Hs _].
    - by injection H as <- <-.
    - by injection H as <- <-.
  Qed.

  Lemma wp_element : forall k parent evs h h' rest r, WInv h -> is_doc h doc ->
    element k E doc parent evs h = (h', rest, r) -> preturned r -> wisteps Lb h h'.
  Proof.
    induction k as [|k IH]; intros parent evs h h' rest r HI Hd H Hr; [by injection H as <- <- <-|].
    assert (HS : forall A (m : PM A) rest0, wptriple Lb h m (fun _ _ => True) ->
      match m h with
      | (h1, POk _) => element k E doc parent rest0 h1
      | (h1, PErr e) => (h1, rest0, PErr e)
      | (h1, PPanic p) => (h1, rest0, PPanic p)
      | (h1, PDiverge) => (h1, rest0, PDiverge)
      end = (h', rest, r) -> wisteps Lb h h').
    { intros A m rest0 Hm H0. destruct (m h) as [h1 [a|e|p|]] eqn:Em.
      - destruct (Hm HI _ _ Em Logic.I) as [Hs _]. eapply wisteps_app; [exact Hs|]. eapply IH; [by eapply wisteps_inv| |exact H0|done].
        eapply wisteps_doc; [apply Lb_nodrop|exact HI|exact Hs|done].
      - injection H0 as <- <- <-. by destruct (Hm HI _ _ Em Logic.I) as [Hs _].
      - by injection H0 as <- <- <-.
      - by injection H0 as <- <- <-. }
    cbn [element] in H. destruct evs as [|ev evs]; [injection H as <- <- <-; apply wisteps_nil|].
    destruct ev as [v e s|name attrs|name attrs| |t|t|t|t| |];
      try (injection H as <- <- <-; apply wisteps_nil).
    - destruct (handle_start E doc parent name attrs h) as [h1 [el|e|p|]] eqn:Em.
      + destruct (wp_start h parent name attrs Hd HI _ _ Em Logic.I) as [Hs1 _].
        assert (HI1 : WInv h1) by (by eapply wisteps_inv).
        assert (Hd1 : is_doc h1 doc) by (eapply wisteps_doc; [apply Lb_nodrop|exact HI|exact Hs1|done]).
        destruct (element k E doc el evs h1) as [[h2 rest2] [x|e|p|]] eqn:Ee.
        * pose proof (IH _ _ _ _ _ _ HI1 Hd1 Ee Logic.I) as Hs2.
          eapply wisteps_app; [exact Hs1|]. eapply wisteps_app; [exact Hs2|]. eapply IH; [by eapply wisteps_inv| |exact H|done].
          eapply wisteps_doc; [apply Lb_nodrop|exact HI1|exact Hs2|done].
        * injection H as <- <- <-. eapply wisteps_app; [exact Hs1|]. by eapply (IH _ _ _ _ _ _ HI1 Hd1 Ee).
        * by injection H as <- <- <-.
        * by injection H as <- <- <-.
      + injection H as <- <- <-. by destruct (wp_start h parent name attrs Hd HI _ _ Em Logic.I) as [Hs _].
      + by injection H as <- <- <-.
      + by injection H as <- <- <-.
    - eapply HS; [|exact H]. by apply wp_start.
    - eapply HS; [|exact H]. by apply wp_comment.
    - eapply HS; [|exact H]. by apply wp_pi.
    - eapply HS; [|exact H]. by apply wp_text.
    - eapply HS; [|exact H]. by apply wp_cdata.
  Qed.

  Lemma wp_document : forall k evs h h' r, WInv h -> is_doc h doc ->
    document_loop k E doc evs h = (h', r) -> preturned r -> wisteps Lb h h'.
  Proof.
    induction k as [|k IH]; intros evs h h' r HI Hd H Hr; [by injection H as <- <-|].
    cbn [document_loop] in H. destruct evs as [|ev evs]; [injection H as <- <-; apply wisteps_nil|].
    destruct ev as [v e s|name attrs|name attrs| |t|t|t|t| |];
      try (injection H as <- <-; apply wisteps_nil).
    - eapply (wp_step (handle_decl doc v e s)); [apply wp_decl|done|done| |exact H|done]. intros h1 HI1 Hd1 h2 r2 H2 Hr2. by eapply IH.
    - destruct (handle_start E doc doc name attrs h) as [h1 [el|e|p|]] eqn:Em.
      + destruct (wp_start h doc name attrs Hd HI _ _ Em Logic.I) as [Hs1 _].
        assert (HI1 : WInv h1) by (by eapply wisteps_inv).
        assert (Hd1 : is_doc h1 doc) by (eapply wisteps_doc; [apply Lb_nodrop|exact HI|exact Hs1|done]).
        destruct (element (S (length evs)) E doc el evs h1) as [[h2 rest2] [x|e|p|]] eqn:Ee.
        * pose proof (wp_element _ _ _ _ _ _ _ HI1 Hd1 Ee Logic.I) as Hs2.
          eapply wisteps_app; [exact Hs1|]. eapply wisteps_app; [exact Hs2|]. eapply IH; [by eapply wisteps_inv| |exact H|done].
          eapply wisteps_doc; [apply Lb_nodrop|exact HI1|exact Hs2|done].
        * pose proof (wp_element _ _ _ _ _ _ _ HI1 Hd1 Ee Logic.I) as Hs2.
          eapply wisteps_app; [exact Hs1|]. eapply wisteps_app; [exact Hs2|]. eapply IH; [by eapply wisteps_inv| |exact H|done].
          eapply wisteps_doc; [apply Lb_nodrop|exact HI1|exact Hs2|done].
        * by injection H as <- <-.
        * by injection H as <- <-.
      + injection H as <- <-. by destruct (wp_start h doc name attrs Hd HI _ _ Em Logic.I) as [Hs _].
      + by injection H as <- <-.
      + by injection H as <- <-.
    - eapply (wp_step (handle_start E doc doc name attrs)); [by apply wp_start|done|done| |exact H|done]. intros h1 HI1 Hd1 h2 r2 H2 Hr2. by eapply IH.
    - by eapply IH.
    - eapply (wp_step (handle_comment doc doc t)); [by apply wp_comment|done|done| |exact H|done]. intros h1 HI1 Hd1 h2 r2 H2 Hr2. by eapply IH.
    - eapply (wp_step (handle_pi doc doc t)); [by apply wp_pi|done|done| |exact H|done]. intros h1 HI1 Hd1 h2 r2 H2 Hr2. by eapply IH.
  Qed.
End parse.

Lemma wread_events_steps E evs h h' r : WInv h -> read_events E evs h = (h', r) -> preturned r -> wisteps Lb h h'.
Proof.
  intros HI H Hr. unfold read_events in H.
  assert (Hc : wptriple Lb h (pdom_unwrap (create_document None None None)) (fun d h' => is_doc h' d)).
  { apply wptriple_unwrap, wt_create_document. }
  destruct (pdom_unwrap (create_document None None None) h) as [h1 [d|e|p|]] eqn:Em.
  - destruct (Hc HI _ _ Em Logic.I) as [Hs Hd]. eapply wisteps_app; [exact Hs|].
    eapply wp_document; [by eapply wisteps_inv|by apply (Hd d)|exact H|done].
  - injection H as <- <-. by destruct (Hc HI _ _ Em Logic.I) as [Hs _].
  - by injection H as <- <-.
  - by injection H as <- <-.
Qed.

(** ** Every call *)
Lemma wtriple_true {A} L h (m : M A) Q : wtriple L h m Q -> wtriple L h m (fun _ _ => True).
Proof. intros Hm. by eapply wtriple_weaken. Qed.
Lemma wtriple_out {A} L h (f : A -> option id) (m : M A) : wtriple L h m (fun _ _ => True) -> wtriple L h (out f m) (fun _ _ => True).
Proof. intros Hm. unfold out. wtbind (fun (_ : A) (_ : heap) => True); [done|]. intros a h1 _ _. by apply wtriple_ret. Qed.

Lemma wtriple_live {A} L h d (m : M A) Q : (wwdoc h d -> wtriple L h m Q) -> wtriple L h (with_handle d m) Q.
Proof. intros Hm. apply wtriple_inv. intros HI. unfold with_handle. apply wtriple_node. intros n Hn. apply Hm. by eapply winv_lt. Qed.
Lemma wexec_triple E o h : wtriple (wlab o) h (exec E o) (fun _ _ => True).
Proof.
  apply wtriple_inv. intros HI.
  assert (HL : forall {A} (m : M A) Q, wtriple Lb h m Q -> wtriple (wlab o) h m Q) by (intros; by apply wtriple_Lb).
  destruct o; cbn [exec].
  - apply wtriple_out, HL. eapply wtriple_true, wt_create_document.
  - apply wtriple_out, HL. unfold create_document_type. apply wtriple_read. intros nm Hnm. eapply wtriple_true, wtriple_new; try done. by eapply parsed_from_str.
  - intros _ h' r H Hr. unfold read_xml_op in H.
    destruct (read_events E evs h) as [h1 [d|e|p|]] eqn:Er.
    + injection H as <- <-. split; [|done]. eapply wisteps_weaken; [intros l; by apply Lb_wlab|]. by eapply wread_events_steps.
    + assert (h' = h1) as -> by (destruct e; by injection H as <- <-). split; [|done].
      eapply wisteps_weaken; [intros l; by apply Lb_wlab|]. by eapply wread_events_steps.
    + by injection H as <- <-.
    + by injection H as <- <-.
  - apply wtriple_out, HL. unfold create_element. apply wtriple_live; intros Hw; apply wtriple_read; intros nm Hnm. eapply wtriple_true, wt_element; [done|by eapply parsed_from_str].
  - apply wtriple_out, HL. unfold create_element_ns. apply wtriple_live; intros Hw; apply wtriple_read; intros nm Hnm. eapply wtriple_true, wt_element; [done|by eapply parsed_new_ns].
  - apply wtriple_out, HL. unfold create_attribute. apply wtriple_live; intros Hw; apply wtriple_read; intros nm Hnm. eapply wtriple_true, wt_attr; [done|by eapply parsed_from_str].
  - apply wtriple_out, HL. unfold create_attribute_with. apply wtriple_live; intros Hw; apply wtriple_read; intros nm Hnm. eapply wtriple_true, wt_attr; [done|by eapply parsed_from_str].
  - apply wtriple_out, HL. unfold create_attribute_ns. apply wtriple_live; intros Hw; apply wtriple_read; intros nm Hnm. eapply wtriple_true, wt_attr; [done|by eapply parsed_new_ns].
  - apply wtriple_out, HL. eapply wtriple_true, wtriple_live; intros Hw; by apply wt_text.
  - apply wtriple_out, HL. eapply wtriple_true, wtriple_live; intros Hw; by apply wt_cdata.
  - apply wtriple_out, HL. eapply wtriple_true, wtriple_live; intros Hw; by apply wt_comment.
  - apply wtriple_out, HL. unfold create_processing_instruction. apply wtriple_live; intros Hw. destruct (str_eqb _ _) eqn:Hxt; [apply wtriple_fail|].
    apply wtriple_read. intros nm Hnm. eapply wtriple_true, wt_pi; [done|by eapply pi_named].
  - apply wtriple_out, HL. eapply wtriple_true, wtriple_live; intros Hw; by apply wt_fragment.
  - apply wtriple_out, HL. unfold create_entity_reference. apply wtriple_live; intros Hw; apply wtriple_read; intros nm Hnm. eapply wtriple_true, wt_ref; [done|by eapply parsed_from_str].
  - apply wtriple_out, HL. unfold create_notation. apply wtriple_live; intros Hw; apply wtriple_read; intros nm Hnm. eapply wtriple_true, wt_notation; [done|by eapply parsed_from_str].
  - apply wtriple_out, HL. unfold create_entity. apply wtriple_live; intros Hw; apply wtriple_read; intros nm Hnm. eapply wtriple_true, wt_entity; [done|by eapply parsed_from_str].
  - apply wtriple_out, HL. unfold create_internal_entity. apply wtriple_live; intros Hw; apply wtriple_read; intros nm Hnm. eapply wtriple_true, wt_ientity; [done|by eapply parsed_from_str].
  - eapply wtriple_out, wtriple_true, wt_insert; done.
  - eapply wtriple_out, wtriple_true, wt_insert; done.
  - eapply wtriple_out, wtriple_true, wt_replace_child.
  - eapply wtriple_out, wtriple_true, wt_remove_child. done.
  - eapply wtriple_out, wtriple_true. intros _ h' r H Hr. eapply wt_clone_rec; [| |done|exact H|done].
    + by intros l [=].
    + done.
  - eapply wtriple_out, wtriple_true, wt_normalize.
  - eapply wtriple_out, wtriple_true, wt_set_value. done.
  - eapply wtriple_out, wtriple_true, wt_set_value. done.
  - eapply wtriple_out, wtriple_true, wt_append_data. done.
  - eapply wtriple_out, wtriple_true, wt_insert_data. done.
  - eapply wtriple_out, wtriple_true, wt_delete_data. done.
  - eapply wtriple_out, wtriple_true, wt_replace_data. done.
  - eapply wtriple_out, wtriple_true, wt_split.
  - destruct (h_nodes h !! i) as [n|] eqn:Hn; [by eapply wtriple_out, wtriple_true, wt_attr_set_value|].
    intros _ h' r H Hr. unfold out, attr_set_value, attr_unset_value, bind, modifyM in H. rewrite Hn in H. by injection H as <- <-.
  - destruct (h_nodes h !! i) as [n|] eqn:Hn; [by eapply wtriple_out, wtriple_true, wt_attr_clear|].
    intros _ h' r H Hr. unfold out, attr_unset_value, bind, modifyM in H. rewrite Hn in H. by injection H as <- <-.
  - apply wtriple_out, HL. unfold set_attribute. apply wtriple_read. intros nm Hnm. eapply wtriple_true, wt_set_new_attribute. by eapply parsed_from_str.
  - apply wtriple_out, HL. unfold set_attribute_ns. apply wtriple_read. intros nm Hnm. eapply wtriple_true, wt_set_new_attribute. by eapply parsed_new_ns.
  - apply wtriple_out, HL. eapply wtriple_true, wt_set_attribute_node.
  - apply wtriple_out, wt_remove_found.
  - apply wtriple_out, wt_remove_found.
  - eapply wtriple_out, wtriple_true, wt_remove_attribute_node; done.
  - apply wtriple_out, HL. by eapply wtriple_true, wt_set_decl.
  - apply wtriple_out. intros _ h' r H Hr. unfold drop_nodes in H. destruct (bool_decide_reflect (can_drop h l)) as [Hc|Hc]; [|by injection H as <- <-].
    injection H as <- <-. split; [|intros a _; exact Logic.I]. eapply wisteps_one; [|by apply wpr_drop]. done.
Qed.

Lemma wstep_isteps h o h' : WInv h -> wstep h o h' -> wisteps (wlab o) h h'.
Proof.
  intros HI (E & r & HE & H & Hr). by destruct (wexec_triple E o h HI h' r H) as [Hs _]; [destruct r|].
Qed.
Theorem wild_inv h : wild h -> WInv h.
Proof. intros H. induction H as [|h o h' _ IH Hs]; [apply winv_empty|]. by eapply wisteps_inv; [eapply wstep_isteps|]. Qed.
