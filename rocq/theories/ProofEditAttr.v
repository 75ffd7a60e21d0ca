(** * ProofEditAttr: attribute calls show a change at the element only *)
From Coq Require Import Lia.
From Verif Require Import SpecEdit ProofInv ProofSteps ProofOps ProofFrame ProofShow ProofElem ProofEdit.

Definition calm_node (e j : id) (n n' : node) : Prop :=
  n_type n' = n_type n /\ n_name n' = n_name n /\ n_value n' = n_value n /\ n_owner n' = n_owner n /\ n_children n' = n_children n /\
  typed n' = typed n /\ (j <> e -> shown (n_ext n') = shown (n_ext n)).
Definition calmed (e : id) (h h' : heap) : Prop := lt_next h ->
  lt_next h' /\ (h_next h <= h_next h')%nat /\
  (forall j n, h_nodes h !! j = Some n -> exists n', h_nodes h' !! j = Some n' /\ calm_node e j n n') /\
  (forall j, (j < h_next h)%nat -> h_nodes h !! j = None -> h_nodes h' !! j = None).
Lemma calm_refl e j n : calm_node e j n n. Proof. by split_and!. Qed.
Lemma calm_trans e j n1 n2 n3 : calm_node e j n1 n2 -> calm_node e j n2 n3 -> calm_node e j n1 n3.
Proof.
  intros (A1 & A2 & A3 & A4 & A5 & A6 & A7) (B1 & B2 & B3 & B4 & B5 & B6 & B7). split_and!; try congruence.
  intros Hj. rewrite B7 by done. by apply A7.
Qed.
Lemma calmed_refl e h : calmed e h h.
Proof. intros HL. split; [done|]. split; [done|]. split; [|done]. intros j n Hj. exists n. split; [done|apply calm_refl]. Qed.
Lemma calmed_trans e h1 h2 h3 : calmed e h1 h2 -> calmed e h2 h3 -> calmed e h1 h3.
Proof.
  intros H1 H2 HL. destruct (H1 HL) as (L1 & N1 & O1 & D1). destruct (H2 L1) as (L2 & N2 & O2 & D2). split; [done|]. split; [lia|]. split.
  - intros j n Hj. destruct (O1 j n Hj) as (n2 & Hn2 & C1). destruct (O2 j n2 Hn2) as (n3 & Hn3 & C2). exists n3. split; [done|by eapply calm_trans].
  - intros j Hj Hd. apply D2; [lia|]. by apply D1.
Qed.
Definition cm {A} (e : id) (h : heap) (m : M A) : Prop := forall h' r, m h = (h', r) -> calmed e h h'.
Lemma cm_bind {A B} e h (m : M A) (k : A -> M B) : cm e h m -> (forall h1 a, m h = (h1, Ok a) -> cm e h1 (k a)) -> cm e h (bind m k).
Proof.
  intros Hm Hk h' r H. unfold bind in H. destruct (m h) as [h1 [a|x|p|]] eqn:Em.
  - eapply calmed_trans; [by eapply Hm|]. by eapply (Hk h1 a eq_refl).
  - injection H as <- <-. by eapply Hm.
  - injection H as <- <-. by eapply Hm.
  - injection H as <- <-. by eapply Hm.
Qed.
Lemma cm_ret {A} e h (a : A) : cm e h (ret a). Proof. intros h' r [= <- <-]. apply calmed_refl. Qed.
Lemma cm_fail {A} e h x : cm e h (@fail A x). Proof. intros h' r [= <- <-]. apply calmed_refl. Qed.
Lemma cm_panic {A} e h p : cm e h (@panic_ A p). Proof. intros h' r [= <- <-]. apply calmed_refl. Qed.
Lemma cm_lift {A} e h (f : heap -> res A) : cm e h (lift f). Proof. intros h' r [= <- <-]. apply calmed_refl. Qed.
Lemma cm_node {B} e h i (k : node -> M B) : (forall n, h_nodes h !! i = Some n -> cm e h (k n)) -> cm e h (do? n := getM i in k n).
Proof. intros Hk. apply cm_bind; [apply cm_lift|]. intros h1 n H. unfold getM, lift in H. injection H as <- H. apply Hk. by apply get_node_ok. Qed.
Lemma cm_read {A B} e h (f : heap -> res A) (k : A -> M B) : (forall a, f h = Ok a -> cm e h (k a)) -> cm e h (do? x := lift f in k x).
Proof. intros Hk. apply cm_bind; [apply cm_lift|]. intros h1 n H. unfold lift in H. injection H as <- H. by apply Hk. Qed.
Lemma cm_modify e h i f : (forall n, h_nodes h !! i = Some n -> calm_node e i n (f n)) -> cm e h (modifyM i f).
Proof.
  intros HS h' r H. unfold modifyM in H. destruct (h_nodes h !! i) as [n|] eqn:Hn; injection H as <- <-; [|apply calmed_refl].
  change (calmed e h (upd i (f n) h)). intros HL. split; [|split; [done|split]].
  - intros j m. unfold upd. cbn. destruct (decide (j = i)) as [->|Hj]; [intros _; by eapply HL|rewrite lookup_insert_ne by done; apply HL].
  - intros j m Hm. destruct (decide (j = i)) as [->|Hne].
    + exists (f n). split; [apply lookup_upd|]. assert (m = n) as -> by congruence. by apply HS.
    + exists m. rewrite lookup_upd_ne by done. split; [done|apply calm_refl].
  - intros j _ Hj. rewrite lookup_upd_ne; [done|]. intros ->. congruence.
Qed.
Lemma cm_alloc e h n : cm e h (allocM n).
Proof.
  intros h' r [= <- <-] HL. split; [|split; [cbn; lia|split]].
  - intros j m. cbn. destruct (decide (j = h_next h)) as [->|Hj]; [lia|]. rewrite lookup_insert_ne by done. intros Hm. specialize (HL j m Hm). lia.
  - intros j m Hm. exists m. cbn. pose proof (HL j m Hm). rewrite lookup_insert_ne by lia. split; [done|apply calm_refl].
  - intros j Hj Hm. cbn. by rewrite lookup_insert_ne by lia.
Qed.
Lemma cm_out {A} e h (f : A -> option id) (m : M A) : cm e h m -> cm e h (out f m).
Proof. intros Hm. unfold out. apply cm_bind; [done|]. intros. apply cm_ret. Qed.

Lemma cm_insert_mapping e h p u : cm e h (insert_mapping e p u).
Proof.
  unfold insert_mapping. apply cm_read. intros b _. destruct (negb b); [apply cm_ret|]. apply cm_node. intros n Hn.
  destruct (is_type NElement n); [|apply cm_fail]. destruct (n_ext n) eqn:Hx; try apply cm_fail. apply cm_modify. intros m Hm. assert (m = n) by congruence. subst m.
  split_and!; try done. unfold typed. cbn. by rewrite Hx.
Qed.
Lemma cm_set_attribute_node E e a h : cm e h (set_attribute_node E e a).
Proof.
  unfold set_attribute_node. apply cm_node. intros ne He. apply cm_node. intros na Ha. destruct (negb _); [apply cm_fail|].
  apply cm_read. intros [] _. apply cm_bind.
  { destruct (n_ext na) eqn:Hx; try apply cm_panic. apply cm_modify. intros m Hm. assert (m = na) by congruence. subst m.
    split_and!; try done; [unfold typed; cbn; by rewrite Hx|]. intros _. cbn. by rewrite Hx. }
  intros h1 _ _. apply cm_bind.
  { destruct (is_namespace_attribute _); [|apply cm_ret]. apply cm_read. intros v _. apply cm_insert_mapping. }
  intros h2 _ _. apply cm_node. intros ne2 He2. destruct (n_ext ne2) eqn:Hx2; try apply cm_fail.
  apply cm_bind.
  { apply cm_modify. intros m Hm. assert (m = ne2) by congruence. subst m. split_and!; try done. unfold typed. cbn. by rewrite Hx2. }
  intros h3 _ _. apply cm_read. intros d Hd. destruct (bool_decide _); [apply cm_panic|]. apply cm_node. intros nd Hnd.
  destruct (is_id_attribute _ _); [|apply cm_ret]. destruct (n_ext nd) eqn:Hxd; try apply cm_ret. apply cm_read. intros v _.
  destruct (hm_get _ _); [apply cm_fail|]. apply cm_bind; [|intros; apply cm_ret]. apply cm_modify. intros m Hm. assert (m = nd) by congruence. subst m.
  split_and!; try done; [unfold typed; cbn; by rewrite Hxd|]. intros _. cbn. by rewrite Hxd.
Qed.
Lemma cm_set_new_attribute E e nm v h : cm e h (set_new_attribute E e nm v).
Proof.
  unfold set_new_attribute. apply cm_node. intros ne He. apply cm_read. intros d _. apply cm_bind.
  { unfold new_attribute. apply cm_bind; [|intros; apply cm_ret]. apply cm_bind; [apply cm_alloc|]. intros. apply cm_ret. }
  intros h1 na _. apply cm_bind; [apply cm_alloc|]. intros h2 a _. apply cm_bind; [apply cm_set_attribute_node|]. intros. apply cm_ret.
Qed.
Lemma cm_remove_attribute_node e a h : cm e h (remove_attribute_node e a).
Proof.
  unfold remove_attribute_node. apply cm_node. intros ne He. destruct (is_type NElement ne); [|apply cm_fail]. destruct (n_ext ne) eqn:Hx; try apply cm_fail.
  destruct (bool_decide _); [apply cm_panic|]. apply cm_node. intros na Ha. apply cm_bind.
  { apply cm_modify. intros m Hm. assert (m = ne) by congruence. subst m. split_and!; try done. unfold typed. cbn. by rewrite Hx. }
  intros h1 _ _. apply cm_bind; [|intros; apply cm_ret]. apply cm_modify. intros m Hm. by split_and!.
Qed.
Lemma cm_exec E o e h : edits_attributes o e -> cm e h (exec E o).
Proof.
  intros Ho. destruct o; cbn in Ho; try done; subst; cbn [exec]; apply cm_out.
  - unfold set_attribute. apply cm_read. intros. apply cm_set_new_attribute.
  - unfold set_attribute_ns. apply cm_read. intros. apply cm_set_new_attribute.
  - apply cm_set_attribute_node.
  - unfold remove_attribute. apply cm_read. intros [a|] _; [|apply cm_ret]. apply cm_bind; [apply cm_remove_attribute_node|]. intros. apply cm_ret.
  - unfold remove_attribute_ns. apply cm_read. intros [a|] _; [|apply cm_ret]. apply cm_bind; [apply cm_remove_attribute_node|]. intros. apply cm_ret.
  - apply cm_remove_attribute_node.
Qed.
