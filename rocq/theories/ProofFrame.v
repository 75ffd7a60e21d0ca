(** * ProofFrame: every computation changes only what [writes] says *)
From Coq Require Import Lia.
From Verif Require Import SpecFrame SpecName ProofText ProofName ProofInv ProofSteps ProofOps.

Definition same_but (W : part -> Prop) (n n' : node) : Prop :=
  static n' = static n /\ forall f, W f \/ part_same n n' f.
Definition lt_next (h : heap) : Prop := forall i n, h_nodes h !! i = Some n -> (i < h_next h)%nat.
Record frame (N : nat) (W : id -> part -> Prop) (h h' : heap) : Prop := {
  fr_next : (h_next h <= h_next h')%nat;
  fr_lt : lt_next h -> lt_next h';
  fr_some : forall j n, (j < N)%nat -> h_nodes h !! j = Some n -> exists n', h_nodes h' !! j = Some n' /\ same_but (W j) n n';
  fr_none : forall j, (j < N)%nat -> h_nodes h !! j = None -> h_nodes h' !! j = None }.

Lemma same_refl W n : same_but W n n.
Proof. split; [done|]. intros f. right. by destruct f. Qed.
Lemma same_trans W n1 n2 n3 : same_but W n1 n2 -> same_but W n2 n3 -> same_but W n1 n3.
Proof.
  intros [H1 P1] [H2 P2]. split; [congruence|]. intros f. destruct (P1 f) as [?|G1]; [by left|]. destruct (P2 f) as [?|G2]; [by left|]. right.
  destruct f; cbn in *; congruence.
Qed.
Lemma frame_refl N W h : frame N W h h.
Proof. split; [done|done| |done]. intros j n _ Hn. exists n. split; [done|apply same_refl]. Qed.
Lemma frame_trans N W h1 h2 h3 : frame N W h1 h2 -> frame N W h2 h3 -> frame N W h1 h3.
Proof.
  intros [A1 B1 C1 D1] [A2 B2 C2 D2]. split; [lia|auto| |auto].
  intros j n Hj Hn. destruct (C1 j n Hj Hn) as (n2 & Hn2 & S1). destruct (C2 j n2 Hj Hn2) as (n3 & Hn3 & S2). exists n3. split; [done|by eapply same_trans].
Qed.
Lemma frame_weaken N N' (W W' : id -> part -> Prop) h h' : (N <= N')%nat -> (forall j f, (j < N)%nat -> W' j f -> W j f) -> frame N' W' h h' -> frame N W h h'.
Proof.
  intros HN HW [A B C D]. split; [done|done| |intros j Hj; apply D; lia].
  intros j n Hj Hn. destruct (C j n ltac:(lia) Hn) as (n' & Hn' & S & P). exists n'. split; [done|]. split; [done|]. intros f. destruct (P f); [left; by apply HW|by right].
Qed.

Definition fpM {A} (N : nat) (W : id -> part -> Prop) (h : heap) (m : M A) : Prop := forall h' r, m h = (h', r) -> frame N W h h'.
Lemma fp_bind {A B} N W h (m : M A) (k : A -> M B) :
  fpM N W h m -> (forall h1 a, m h = (h1, Ok a) -> frame N W h h1 -> fpM N W h1 (k a)) -> fpM N W h (bind m k).
Proof.
  intros Hm Hk h' r H. unfold bind in H. destruct (m h) as [h1 [a|e|p|]] eqn:Em.
  - pose proof (Hm _ _ Em) as F. eapply frame_trans; [exact F|]. by eapply (Hk h1 a eq_refl F).
  - injection H as <- <-. by eapply Hm.
  - injection H as <- <-. by eapply Hm.
  - injection H as <- <-. by eapply Hm.
Qed.
Lemma fp_ret {A} N (W : id -> part -> Prop) h (a : A) : fpM N W h (ret a). Proof. intros h' r [= <- <-]. apply frame_refl. Qed.
Lemma fp_fail {A} N (W : id -> part -> Prop) h e : fpM N W h (@fail A e). Proof. intros h' r [= <- <-]. apply frame_refl. Qed.
Lemma fp_panic {A} N (W : id -> part -> Prop) h p : fpM N W h (@panic_ A p). Proof. intros h' r [= <- <-]. apply frame_refl. Qed.
Lemma fp_lift {A} N (W : id -> part -> Prop) h (f : heap -> res A) : fpM N W h (lift f). Proof. intros h' r [= <- <-]. apply frame_refl. Qed.
Lemma fp_node {B} N W h i (k : node -> M B) : (forall n, h_nodes h !! i = Some n -> fpM N W h (k n)) -> fpM N W h (do? n := getM i in k n).
Proof.
  intros Hk. apply fp_bind; [apply fp_lift|]. intros h1 n H _. unfold getM, lift in H. injection H as <- H. apply Hk. by apply get_node_ok.
Qed.
Lemma fp_read {A B} N W h (f : heap -> res A) (k : A -> M B) : (forall a, f h = Ok a -> fpM N W h (k a)) -> fpM N W h (do? x := lift f in k x).
Proof. intros Hk. apply fp_bind; [apply fp_lift|]. intros h1 n H _. unfold lift in H. injection H as <- H. by apply Hk. Qed.
Lemma fp_weaken {A} N N' (W W' : id -> part -> Prop) h (m : M A) : (N <= N')%nat -> (forall j f, (j < N)%nat -> W' j f -> W j f) -> fpM N' W' h m -> fpM N W h m.
Proof. intros HN HW Hm h' r H. eapply frame_weaken; [exact HN|exact HW|by eapply Hm]. Qed.
Lemma upd_frame N W h i n n' : h_nodes h !! i = Some n -> ((i < N)%nat -> same_but (W i) n n') -> frame N W h (upd i n' h).
Proof.
  intros Hn HS. split; [done| | |].
  - intros HL j m. unfold upd. cbn. destruct (decide (j = i)) as [->|Hj]; [intros _; by eapply HL|rewrite lookup_insert_ne by done; apply HL].
  - intros j m Hj Hm. destruct (decide (j = i)) as [->|Hne].
    + exists n'. split; [apply lookup_upd|]. assert (m = n) as -> by congruence. by apply HS.
    + exists m. rewrite lookup_upd_ne by done. split; [done|apply same_refl].
  - intros j Hj Hm. rewrite lookup_upd_ne; [done|]. intros ->. congruence.
Qed.
Lemma fp_modify N (W : id -> part -> Prop) h i f : (forall n, (i < N)%nat -> h_nodes h !! i = Some n -> same_but (W i) n (f n)) -> fpM N W h (modifyM i f).
Proof.
  intros HS h' r H. unfold modifyM in H. destruct (h_nodes h !! i) as [n|] eqn:Hn; injection H as <- <-; [|apply frame_refl].
  eapply upd_frame; [done|]. intros Hi. by apply HS.
Qed.
Lemma alloc_frame N W h n : (N <= h_next h)%nat -> frame N W h (allocd n h).
Proof.
  intros HN. split.
  - cbn. lia.
  - intros HL j m. cbn. destruct (decide (j = h_next h)) as [->|Hj]; [lia|]. rewrite lookup_insert_ne by done. intros Hm. specialize (HL j m Hm). lia.
  - intros j m Hj Hm. exists m. cbn. rewrite lookup_insert_ne by lia. split; [done|apply same_refl].
  - intros j Hj Hm. cbn. by rewrite lookup_insert_ne by lia.
Qed.
Lemma fp_alloc N (W : id -> part -> Prop) h n : (N <= h_next h)%nat -> fpM N W h (allocM n).
Proof. intros HN h' r [= <- <-]. by apply alloc_frame. Qed.
Lemma fp_err_to_panic {A} N (W : id -> part -> Prop) h p (m : M A) : fpM N W h m -> fpM N W h (err_to_panic p m).
Proof. intros Hm h' r H. unfold err_to_panic in H. destruct (m h) as [h1 [a|e|q|]] eqn:Em; injection H as <- <-; by eapply Hm. Qed.
Lemma fp_handle {A} N (W : id -> part -> Prop) h d (m : M A) : fpM N W h m -> fpM N W h (with_handle d m).
Proof. intros Hm. unfold with_handle. apply fp_node. by intros. Qed.
Lemma fp_out {A} N (W : id -> part -> Prop) h (f : A -> option id) (m : M A) : fpM N W h m -> fpM N W h (out f m).
Proof. intros Hm. unfold out. apply fp_bind; [done|]. intros. apply fp_ret. Qed.

(** What a frame says about the node it leaves alone. *)
Lemma frame_node N W h h' j n : frame N W h h' -> (j < N)%nat -> h_nodes h !! j = Some n -> exists n', h_nodes h' !! j = Some n' /\ same_but (W j) n n'.
Proof. intros F. apply (fr_some _ _ _ _ F). Qed.
Lemma frame_back N W h h' j n' : frame N W h h' -> (j < N)%nat -> h_nodes h' !! j = Some n' -> exists n, h_nodes h !! j = Some n /\ same_but (W j) n n'.
Proof.
  intros F Hj Hn'. destruct (h_nodes h !! j) as [n|] eqn:Hn.
  - destruct (fr_some _ _ _ _ F j n Hj Hn) as (m & Hm & HS). exists n. split; [done|]. congruence.
  - pose proof (fr_none _ _ _ _ F j Hj Hn). congruence.
Qed.

Lemma same_value (W : part -> Prop) v n : W PValue -> same_but W n (set_value v n).
Proof. intros H. split; [by destruct n|]. intros []; cbn; [by left|by right..]. Qed.
Lemma same_parent (W : part -> Prop) v n : W PParent -> same_but W n (set_parent v n).
Proof. intros H. split; [by destruct n|]. intros []; cbn; try (by right). by left. Qed.
Lemma same_children (W : part -> Prop) v n : W PChildren -> same_but W n (set_children v n).
Proof. intros H. split; [by destruct n|]. intros []; cbn; try (by right). by left. Qed.
Lemma same_ext (W : part -> Prop) v n : W PMaps -> same_but W n (set_ext v n).
Proof. intros H. split; [by destruct n|]. intros []; cbn; try (by right). by left. Qed.

(** ** Tree operations *)
Lemma fp_remove_child N (W : id -> part -> Prop) h p c : W p PChildren -> W c PParent -> fpM N W h (remove_child p c).
Proof.
  intros H1 H2. unfold remove_child. apply fp_node. intros np Hp. destruct (position c (n_children np)) as [k|]; [|apply fp_fail].
  apply fp_bind; [apply fp_modify; intros; by apply same_children|]. intros h1 _ _ _. apply fp_bind; [apply fp_modify; intros; by apply same_parent|]. intros. apply fp_ret.
Qed.
Lemma fp_insert_or_append N (W : id -> part -> Prop) h p c pos : W p PChildren -> fpM N W h (insert_or_append p c pos).
Proof.
  intros H. unfold insert_or_append. apply fp_node. intros np Hp. destruct pos as [k|].
  - destruct (vec_insert _ _ _); [apply fp_modify; intros; by apply same_children|apply fp_panic].
  - apply fp_modify; intros; by apply same_children.
Qed.
Lemma fp_insert_all N (W : id -> part -> Prop) p l : W p PChildren -> forall h pos k, fpM N W h (insert_all p l pos k).
Proof.
  intros H. induction l as [|c l IH]; intros h pos k; cbn; [apply fp_ret|]. apply fp_bind; [by apply fp_insert_or_append|]. intros. apply IH.
Qed.
Lemma parent_node_has h c p : parent_node h c = Ok (Some p) -> has_parent h c p.
Proof.
  unfold parent_node, get_node. destruct (h_nodes h !! c) as [n|] eqn:Hn; [|done]. cbn. destruct (is_type NAttribute n); [done|]. intros [= H].
  apply upgrade_some in H as [H _]. by exists n.
Qed.
Lemma fp_insert N (W : id -> part -> Prop) h p c r : Inv h \/ (N <= c)%nat -> W p PChildren -> W c PParent -> (forall q, has_parent h c q -> W q PChildren) -> fpM N W h (insert_before p c r).
Proof.
  intros HI H1 H2 H3. unfold insert_before. apply fp_node. intros np Hp. apply fp_node. intros nc Hc.
  destruct (negb _) eqn:Hall; [apply fp_fail|]. apply negb_false_iff in Hall.
  apply fp_bind; [destruct (is_type NDocument np && is_type NElement nc); [apply fp_lift|apply fp_ret]|]. intros h0 b Hb _.
  assert (h0 = h) as -> by (destruct (_ && _); by injection Hb). clear Hb.
  destruct b; [apply fp_fail|]. apply fp_bind; [destruct r as [r|]; [destruct (position _ _)|]; (apply fp_ret || apply fp_fail)|].
  intros h0 pos Hpos _. assert (h0 = h) as -> by (destruct r as [r|]; [destruct (position _ _)|]; by injection Hpos). clear Hpos.
  apply fp_read. intros [] Hcsd. apply fp_read. intros par Hpar.
  apply fp_bind.
  { destruct par as [q|]; [|apply fp_ret]. apply fp_bind; [|intros; apply fp_ret]. apply fp_remove_child; [by apply H3, parent_node_has|done]. }
  intros h1 _ _ F1. destruct (bool_decide (p = c)); [apply fp_panic|].
  apply fp_bind.
  { apply fp_modify. intros n Hlt Hn. destruct HI as [HI|HN]; [|lia].
    assert (Ho : (if is_type NDocument np then Some p else n_owner np) = n_owner n).
    { destruct (frame_back _ _ _ _ _ _ F1 Hlt Hn) as (m & Hm & HS & _). assert (m = nc) as -> by congruence. injection HS as _ _ Ho. rewrite Ho.
      destruct (child_type_docs _ _ Hall) as (T1 & T2 & _). destruct (csd_ok h p c np nc HI Hp Hc T1 T2 Hcsd) as [G1 G2].
      destruct (is_type NDocument np) eqn:Ht; [apply is_type_true in Ht; symmetry; by apply G1|apply is_type_false in Ht; symmetry; by apply G2]. }
    rewrite Ho. rewrite set_owner_same by done. by apply same_parent. }
  intros h2 _ _ _. apply fp_bind; [|intros; apply fp_ret].
  destruct (is_type NDocumentFragment nc); [apply fp_read; intros; by apply fp_insert_all|by apply fp_insert_or_append].
Qed.
Lemma fp_append_data N (W : id -> part -> Prop) h i x : W i PValue -> fpM N W h (append_data i x).
Proof. intros H. unfold append_data. destruct (is_nil x); [apply fp_ret|]. apply fp_modify. intros. by apply same_value. Qed.
Lemma fp_replace_data N (W : id -> part -> Prop) E h i a b x : W i PValue -> fpM N W h (replace_data E i a b x).
Proof. intros H. unfold replace_data. apply fp_node. intros n Hn. apply fp_read. intros v _. apply fp_modify. intros. by apply same_value. Qed.
Lemma fp_insert_data N (W : id -> part -> Prop) E h i a x : W i PValue -> fpM N W h (insert_data E i a x).
Proof. intros H. unfold insert_data. destruct (is_nil x); [apply fp_ret|]. by apply fp_replace_data. Qed.
Lemma fp_delete_data N (W : id -> part -> Prop) E h i a b : W i PValue -> fpM N W h (delete_data E i a b).
Proof. intros H. unfold delete_data. apply fp_read. intros e _. destruct (_ =? _)%N; [apply fp_ret|]. by apply fp_replace_data. Qed.
Lemma fp_clone N (W : id -> part -> Prop) deep k : forall i h, (N <= h_next h)%nat -> fpM N W h (clone_rec k deep i).
Proof.
  induction k as [|k IH]; intros i h HN; cbn [clone_rec]; [intros h' r [= <- <-]; apply frame_refl|]. apply fp_node. intros n Hn.
  apply fp_bind.
  - destruct deep; [|apply fp_ret]. generalize (n_children n) as l. intros l. clear Hn n. revert h HN. induction l as [|c l IHl]; intros h HN; cbn [mapM_]; [apply fp_ret|].
    apply fp_bind; [by apply IH|]. intros h1 x _ F1. apply fp_bind; [apply IHl; pose proof (fr_next _ _ _ _ F1); lia|]. intros. apply fp_ret.
  - intros h1 cs _ F. apply fp_alloc. pose proof (fr_next _ _ _ _ F). lia.
Qed.
Lemma fp_new_attribute N (W : id -> part -> Prop) h d nm v : (N <= h_next h)%nat -> fpM N W h (new_attribute d nm v).
Proof. intros HN. unfold new_attribute. apply fp_bind; [|intros; apply fp_ret]. destruct v; [|apply fp_ret]. apply fp_bind; [by apply fp_alloc|]. intros. apply fp_ret. Qed.
Lemma fp_alloc_attribute N (W : id -> part -> Prop) h d nm v : (N <= h_next h)%nat -> fpM N W h (do? a := new_attribute d nm v in allocM a).
Proof. intros HN. apply fp_bind; [by apply fp_new_attribute|]. intros h1 a _ F. apply fp_alloc. pose proof (fr_next _ _ _ _ F). lia. Qed.
Lemma new_attribute_owner d nm v h h1 a : new_attribute d nm v h = (h1, Ok a) -> n_owner a = Some d /\ (h_next h <= h_next h1)%nat.
Proof. intros H. unfold new_attribute, bind, ret, allocM in H. destruct v; injection H as <- <-; cbn; split; (done || lia). Qed.

(** ** Attributes *)
Lemma fp_insert_mapping N (W : id -> part -> Prop) h i p u : W i PMaps -> fpM N W h (insert_mapping i p u).
Proof.
  intros H. unfold insert_mapping. apply fp_read. intros b _. destruct (negb b); [apply fp_ret|]. apply fp_node. intros n Hn.
  destruct (is_type NElement n); [|apply fp_fail]. destruct (n_ext n); try apply fp_fail. apply fp_modify. intros. by apply same_ext.
Qed.
Lemma fp_set_attribute_node E h e a : lt_next h ->
  fpM (h_next h) (fun j f => f = PMaps /\ (j = e \/ j = a \/ has_owner h a j)) h (set_attribute_node E e a).
Proof.
  intros HL. unfold set_attribute_node. apply fp_node. intros ne He. apply fp_node. intros na Ha. destruct (negb _); [apply fp_fail|].
  apply fp_read. intros [] _. set (W := fun j f => _).
  assert (We : W e PMaps) by (split; [done|by left]). assert (Wa : W a PMaps) by (split; [done|right; by left]).
  apply fp_bind; [destruct (n_ext na); try apply fp_panic; apply fp_modify; intros; by apply same_ext|]. intros h1 _ _ F1.
  apply fp_bind.
  { destruct (is_namespace_attribute _); [|apply fp_ret]. apply fp_read. intros v _. by apply fp_insert_mapping. }
  intros h2 _ _ F2. pose proof (frame_trans _ _ _ _ _ F1 F2) as F12. apply fp_node. intros ne2 He2. destruct (n_ext ne2); try apply fp_fail.
  apply fp_bind; [apply fp_modify; intros; by apply same_ext|]. intros h3 _ _ F3. pose proof (frame_trans _ _ _ _ _ F12 F3) as F13.
  apply fp_read. intros d Hd.
  assert (Wd : W d PMaps).
  { split; [done|]. right. right. destruct (frame_node _ _ _ _ _ _ F13 (HL _ _ Ha) Ha) as (na3 & Ha3 & HS & _).
    unfold owner_document in Hd. rewrite (get_node_some _ _ _ Ha3) in Hd. cbn in Hd. destruct (upgrade h3 (n_owner na3)) as [d'|] eqn:Hu; [|done]. cbn in Hd. injection Hd as ->.
    apply upgrade_some in Hu as [Hu _]. injection HS as _ _ Ho. exists na. split; [done|congruence]. }
  destruct (bool_decide (d = _)); [apply fp_panic|]. apply fp_node. intros nd Hnd. destruct (is_id_attribute _ _); [|apply fp_ret].
  destruct (n_ext nd); try apply fp_ret. apply fp_read. intros v _. destruct (hm_get _ _); [apply fp_fail|].
  apply fp_bind; [apply fp_modify; intros; by apply same_ext|]. intros. apply fp_ret.
Qed.
Lemma fp_set_new_attribute E N (W : id -> part -> Prop) h e nm v : lt_next h -> (N <= h_next h)%nat -> W e PMaps -> (forall d, has_owner h e d -> W d PMaps) -> fpM N W h (set_new_attribute E e nm v).
Proof.
  intros HL HN We Wd. unfold set_new_attribute. apply fp_node. intros ne He. apply fp_read. intros d Hd.
  assert (Ho : n_owner ne = Some d) by (destruct (n_owner ne) as [d0|]; [by injection Hd as ->|done]).
  apply fp_bind; [by apply fp_new_attribute|]. intros h1 na Ha F1. destruct (new_attribute_owner _ _ _ _ _ _ Ha) as [Hao Hn1].
  apply fp_bind; [apply fp_alloc; lia|]. intros h2 a Ha2 F2. unfold allocM in Ha2. injection Ha2 as <- <-.
  apply fp_bind; [|intros; apply fp_ret]. eapply fp_weaken; [| |apply fp_set_attribute_node].
  - cbn. lia.
  - cbn beta. intros j f Hj [-> [->|[->|(n & Hn & Hj')]]]; [done|lia|]. cbn in Hn. rewrite lookup_insert in Hn. injection Hn as <-. apply Wd. exists ne. split; [done|congruence].
  - apply (fr_lt _ _ _ _ F2). by apply (fr_lt _ _ _ _ F1).
Qed.
Lemma fp_remove_attribute_node N (W : id -> part -> Prop) h e a : W e PMaps -> W a PParent -> fpM N W h (remove_attribute_node e a).
Proof.
  intros H1 H2. unfold remove_attribute_node. apply fp_node. intros ne He. destruct (is_type NElement ne); [|apply fp_fail]. destruct (n_ext ne); try apply fp_fail.
  destruct (bool_decide _); [apply fp_panic|]. apply fp_node. intros na Ha. apply fp_bind; [apply fp_modify; intros; by apply same_ext|]. intros h1 _ _ _.
  apply fp_bind; [apply fp_modify; intros; by apply same_parent|]. intros. apply fp_ret.
Qed.
Lemma fp_set_xml_decl N (W : id -> part -> Prop) h d x : W d PMaps -> fpM N W h (set_xml_declaration d x).
Proof. intros H. unfold set_xml_declaration. apply fp_node. intros n Hn. destruct (n_ext n); try apply fp_fail. apply fp_modify. intros. by apply same_ext. Qed.

(** ** Composite calls *)
Lemma fp_create_document N (W : id -> part -> Prop) h u q t o : (N <= h_next h)%nat -> lt_next h -> fpM N W h (create_document_with_options u q t o).
Proof.
  intros HN HL. unfold create_document_with_options. apply fp_bind; [destruct t; [apply fp_handle, fp_ret|apply fp_ret]|]. intros h0 u0 _ F0.
  pose proof (fr_next _ _ _ _ F0) as N0. apply fp_bind; [apply fp_alloc; lia|]. intros h1 d Hd F1. unfold allocM in Hd. injection Hd as <- <-.
  assert (HL1 : lt_next (allocd (new_document t o) h0)) by (apply (fr_lt _ _ _ _ F1), (fr_lt _ _ _ _ F0), HL).
  change (mkHeap _ _) with (allocd (new_document t o) h0). set (h1 := allocd (new_document t o) h0) in *.
  assert (HN1 : (N <= h_next h1)%nat) by (cbn; lia).
  assert (Hel : forall nm, fpM N W h1 (allocM (new_element (h_next h0) nm))) by (intros; by apply fp_alloc).
  apply fp_bind.
  { destruct u as [u|], q as [q|]; try apply fp_ret; try apply fp_fail; (apply fp_bind; [|intros; apply fp_ret]); apply fp_handle, fp_read; intros nm _; apply Hel. }
  intros h2 [e|] He F2; (apply fp_bind; [|intros; apply fp_ret]); [|apply fp_ret]. apply fp_bind; [|intros; apply fp_ret].
  assert (Hn : (h_next h1 <= e)%nat /\ exists n, h_nodes h2 !! e = Some n /\ n_parent n = None).
  { assert (G : forall nm hh x, allocM (new_element (h_next h0) nm) h1 = (hh, Ok x) -> (h_next h1 <= x)%nat /\ exists n, h_nodes hh !! x = Some n /\ n_parent n = None).
    { intros nm hh x [= <- <-]. split; [done|]. eexists. split; [cbn; apply lookup_insert|done]. }
    destruct u as [u|], q as [q|]; try done.
    - unfold bind in He. unfold create_element_ns, with_handle, getM, lift, bind in He. destruct (get_node h1 (h_next h0)); try done. destruct (name_new_ns u q) as [nm|?|?|]; try done.
      destruct (allocM (new_element (h_next h0) nm) h1) as [hh [x|?|?|]] eqn:Ea; try done. injection He as <- <-. by eapply G.
    - unfold bind in He. unfold create_element, with_handle, getM, lift, bind in He. destruct (get_node h1 (h_next h0)); try done. destruct (name_from_str q) as [nm|?|?|]; try done.
      destruct (allocM (new_element (h_next h0) nm) h1) as [hh [x|?|?|]] eqn:Ea; try done. injection He as <- <-. by eapply G. }
  destruct Hn as (He1 & n & Hn & Hpar). eapply (fp_weaken N N W (fun j f => (j < N)%nat -> W j f)); [done|by auto|].
  apply fp_insert; [right; lia|intros; lia|intros; lia|]. intros qq (m & Hm & Hq). congruence.
Qed.
Lemma fp_replace N (W : id -> part -> Prop) h p c old : Inv h -> W p PChildren -> W c PParent -> W old PParent -> (forall q, has_parent h c q -> W q PChildren) -> fpM N W h (replace_child p c old).
Proof.
  intros HI H1 H2 H3 H4. unfold replace_child. apply fp_node. intros np Hp. apply fp_node. intros nc Hc. destruct (negb _); [apply fp_fail|].
  destruct (bool_decide _); [|apply fp_fail]. apply fp_read. intros nxt _. apply fp_bind; [by apply fp_remove_child|]. intros h1 x Hrem F1.
  apply fp_bind; [|intros; apply fp_ret].
  assert (HI1 : Inv h1).
  { destruct (t_remove_child (fun _ => True) h p old (fun _ _ => Logic.I) HI h1 (Ok x) Hrem Logic.I) as [Hs _]. by eapply isteps_inv. }
  apply fp_insert; [by left|done|done|]. intros q (m & Hm & Hq). apply H4.
  destruct (remove_child_inv h h1 p old (Ok x) HI Hrem Logic.I) as (np' & Hp' & [(_ & _ & [=])|(no & k & Ho & _ & Hne & -> & _)]).
  unfold removed in Hm. destruct (decide (c = old)) as [->|H5].
  - rewrite lookup_upd in Hm. injection Hm as <-. by destruct no.
  - rewrite lookup_upd_ne in Hm by done. destruct (decide (c = p)) as [->|H6].
    + rewrite lookup_upd in Hm. injection Hm as <-. exists np'. split; [done|]. by destruct np'.
    + rewrite lookup_upd_ne in Hm by done. by exists m.
Qed.
Lemma fp_split E N (W : id -> part -> Prop) h i k : lt_next h -> (N <= h_next h)%nat -> W i PValue -> (forall q, has_parent h i q -> W q PChildren) -> fpM N W h (DomOps.split E i k).
Proof.
  intros HL HN H1 H2. eapply (fp_weaken N (h_next h) W (fun j f => f = PValue /\ j = i \/ f = PChildren /\ (has_parent h i j \/ (N <= j)%nat) \/ f = PParent /\ (N <= j)%nat)); [done| |].
  { intros j f Hj [[-> ->]|[[-> [Hq|?]]|[_ ?]]]; [done|by apply H2|lia..]. }
  clear H1 H2. set (W' := fun j f => _). unfold DomOps.split. apply fp_node. intros n Hn. destruct (negb _); [apply fp_fail|]. apply fp_read. intros len _.
  apply (fp_bind _ _ h).
  - destruct (_ <=? _)%N; [apply fp_ret|]. apply fp_read. intros s _. apply fp_bind; [apply fp_delete_data; by left|]. intros. apply fp_ret.
  - intros h1 x Hx F1. assert (F1' : frame (h_next h) (fun j f => f = PValue /\ j = i) h h1).
    { assert (G : fpM (h_next h) (fun j f => f = PValue /\ j = i) h (if (len <=? k)%N then ret [] else do? s := lift (fun h0 => substring_data E h0 i k (len - k)) in do? _ := delete_data E i k (len - k) in ret s)); [|by eapply G].
      destruct (_ <=? _)%N; [apply fp_ret|]. apply fp_read. intros s _. apply fp_bind; [by apply fp_delete_data|]. intros. apply fp_ret. }
    pose proof (fr_next _ _ _ _ F1) as N1. apply fp_node. intros n1 Hn1.
    apply fp_bind; [destruct (n_type n1); try apply fp_fail; (apply fp_read; intros; apply fp_ret)|]. intros h1' nn Hnn _.
    assert (h1' = h1 /\ n_parent nn = None) as [-> Hnp].
    { destruct (n_type n1); try done; unfold bind, lift in Hnn; destruct (unwrap_opt (n_owner n1)); try done; by injection Hnn as <- <-. }
    clear Hnn. apply fp_bind; [apply fp_alloc; lia|]. intros h2 new Ha F2. unfold allocM in Ha. injection Ha as <- <-.
    apply fp_read. intros [p|] Hp; [|apply fp_ret]. apply fp_read. intros nxt _. apply fp_bind; [|intros; apply fp_ret].
    apply parent_node_has in Hp as (n2 & Hn2 & Hp). cbn in Hn2. pose proof (HL _ _ Hn) as Hi. rewrite lookup_insert_ne in Hn2 by lia.
    destruct (frame_node _ _ _ _ _ _ F1' Hi Hn) as (n3 & Hn3 & _ & Hsame). destruct (Hsame PParent) as [[[=] _]|Hpar]. cbn in Hpar.
    apply fp_insert; [right; lia| | |].
    + right. left. split; [done|]. left. exists n. split; [done|]. congruence.
    + right. right. split; [done|lia].
    + intros q (m & Hm & Hq). cbn in Hm. rewrite lookup_insert in Hm. injection Hm as <-. congruence.
Qed.
Lemma fp_attr_set_value N (W : id -> part -> Prop) h i v : (N <= h_next h)%nat -> W i PChildren -> fpM N W h (attr_set_value i v).
Proof.
  intros HN H1. eapply (fp_weaken N N W (fun j f => f = PChildren /\ j = i \/ (N <= j)%nat)); [done|intros j f Hj [[-> ->]|?]; [done|lia]|].
  unfold attr_set_value. apply fp_bind; [apply fp_modify; intros; apply same_children; by left|]. intros h1 _ _ F1.
  apply fp_read. intros d Hd. apply fp_node. intros nd Hnd. destruct (negb _); [apply fp_panic|]. pose proof (fr_next _ _ _ _ F1) as N1.
  apply fp_bind; [apply fp_alloc; lia|]. intros h2 t Ha F2. unfold allocM in Ha. injection Ha as <- <-. apply fp_bind; [|intros; apply fp_ret].
  apply fp_insert; [right; lia|by left|right; lia|]. intros q (m & Hm & Hq). cbn in Hm. rewrite lookup_insert in Hm. by injection Hm as <-.
Qed.

(** Normalizing only shortens child lists and clears parent links. *)
Definition shr (h h1 : heap) : Prop := forall j n1, h_nodes h1 !! j = Some n1 ->
  exists n, h_nodes h !! j = Some n /\ incl (n_children n1) (n_children n) /\ (n_parent n1 = n_parent n \/ n_parent n1 = None) /\ n_type n1 = n_type n.
Lemma shr_trans h1 h2 h3 : shr h1 h2 -> shr h2 h3 -> shr h1 h3.
Proof.
  intros A B j n3 H3. destruct (B j n3 H3) as (n2 & H2 & I2 & P2 & T2). destruct (A j n2 H2) as (n1 & H1 & I1 & P1 & T1). exists n1. split; [done|].
  split; [by eapply incl_tran|]. split; [|congruence]. destruct P2 as [-> | ->]; [done|by right].
Qed.
Lemma shr_refl h : shr h h. Proof. intros j n Hn. exists n. split; [done|]. split; [apply incl_refl|]. split; [by left|done]. Qed.
Lemma shr_modify h h' i f r : (forall n, incl (n_children (f n)) (n_children n) /\ (n_parent (f n) = n_parent n \/ n_parent (f n) = None) /\ n_type (f n) = n_type n) -> modifyM i f h = (h', r) -> shr h h'.
Proof.
  intros Hf H. unfold modifyM in H. destruct (h_nodes h !! i) as [n|] eqn:Hn; injection H as <- <-; [|apply shr_refl].
  intros j n1. destruct (decide (j = i)) as [->|Hj].
  - intros Hm. change (mkHeap _ _) with (upd i (f n) h) in Hm. rewrite lookup_upd in Hm. injection Hm as <-. exists n. split; [done|apply Hf].
  - intros Hm. change (mkHeap _ _) with (upd i (f n) h) in Hm. rewrite lookup_upd_ne in Hm by done. by apply shr_refl.
Qed.
Lemma delete_incl (l : list id) k : incl (delete k l) l.
Proof. intros x Hx. apply elem_of_list_In in Hx. apply elem_of_list_In. revert k Hx. induction l as [|y l IH]; intros [|k] Hx; cbn in *; [done|done|by right|]. apply elem_of_cons in Hx as [->|Hx]; [by left|right; eauto]. Qed.
Lemma fp_normalize N (W : id -> part -> Prop) h i : W i PChildren -> (forall c, has_child h i c -> is_text h c -> W c PParent) ->
  (forall c q j, has_child h i c -> is_text h c -> has_parent h c q -> has_child h q j -> is_text h j -> W j PValue) -> fpM N W h (normalize i).
Proof.
  intros H1 H2 H3. unfold normalize. apply fp_node. intros ni Hi.
  assert (G : forall l h1, incl l (n_children ni) -> shr h h1 -> fpM N W h1 (iterM (normalize_step i) l)).
  { induction l as [|c l IH]; intros h1 Hl HS; cbn [iterM]; [apply fp_ret|].
    assert (Hc : has_child h i c) by (exists ni; split; [done|apply Hl; by left]).
    assert (Hrm : forall h2, (is_text h c -> fpM N W h2 (err_to_panic PExplicit (remove_child i c))) /\ forall h3 r, err_to_panic PExplicit (remove_child i c) h2 = (h3, r) -> shr h2 h3).
    { intros h2. split; [intros Hct; apply fp_err_to_panic, fp_remove_child; [done|by apply H2]|]. intros h3 r. unfold err_to_panic. destruct (remove_child i c h2) as [h4 r4] eqn:Er.
      assert (shr h2 h4); [|destruct r4; by intros [= <- <-]]. unfold remove_child, bind at 1, getM, lift in Er. destruct (get_node h2 i) as [np|?|?|]; try (injection Er as <- <-; apply shr_refl).
      destruct (position c (n_children np)) as [k|] eqn:Ep; [|injection Er as <- <-; apply shr_refl]. unfold bind in Er.
      destruct (modifyM i _ h2) as [h5 r5] eqn:E5. eapply shr_modify in E5; [|intros n; cbn; split; [apply delete_incl|split; [by left|done]]].
      destruct r5; try (injection Er as <- <-; done). destruct (modifyM c _ h5) as [h6 r6] eqn:E6. eapply shr_modify in E6; [|intros n; cbn; split; [apply incl_refl|split; [by right|done]]].
      destruct r6; injection Er as <- <-; by eapply shr_trans. }
    apply fp_bind.
    - unfold normalize_step. apply fp_node. intros nc Hnc. destruct (is_type NText nc) eqn:Htc; [|apply fp_ret]. apply is_type_true in Htc.
      assert (Hct : is_text h c) by (destruct (HS c nc Hnc) as (nc0 & Hc0 & _ & _ & T); exists nc0; split; [done|congruence]). apply fp_read. intros len _. destruct (_ =? _)%N.
      + apply fp_bind; [by apply Hrm|]. intros. apply fp_ret.
      + apply fp_read. intros [p|] Hp; [|apply fp_ret]. apply fp_node. intros np Hnp. destruct (is_type NText np) eqn:Htp; [|apply fp_ret]. apply is_type_true in Htp. apply fp_read. intros v _.
        apply fp_bind; [|intros h2 _ _ _; apply fp_bind; [by apply Hrm|intros; apply fp_ret]]. apply fp_err_to_panic, fp_append_data.
        unfold previous_sibling in Hp. rewrite (get_node_some _ _ _ Hnc) in Hp. cbn in Hp. destruct (is_type NAttribute nc); [done|].
        destruct (upgrade h1 (n_parent nc)) as [q|] eqn:Hu; [|done]. apply upgrade_some in Hu as [Hu _]. unfold get_node in Hp. destruct (h_nodes h1 !! q) as [nq|] eqn:Hq; [|done]. cbn in Hp.
        assert (Hin : In p (n_children nq)).
        { destruct (position c (n_children nq)) as [[|k]|]; [done| |done]. injection Hp as Hp. by eapply elem_of_list_In, elem_of_list_lookup_2. }
        destruct (HS c nc Hnc) as (nc0 & Hc0 & _ & Pc & _). destruct (HS q nq Hq) as (nq0 & Hq0 & Iq & _). destruct (HS p np Hnp) as (np0 & Hp0 & _ & _ & Tp). apply (H3 c q p); [done|done| |exists nq0; split; [done|by apply Iq]|exists np0; split; [done|congruence]].
        exists nc0. split; [done|]. destruct Pc as [Pc|Pc]; congruence.
    - intros h2 [] Hs _. apply IH; [intros x Hx; apply Hl; by right|]. eapply shr_trans; [exact HS|]. revert Hs. unfold normalize_step.
      unfold bind at 1, getM, lift. destruct (get_node h1 c) as [nc|?|?|]; try done. destruct (is_type NText nc); [|intros [= <- ]; apply shr_refl].
      unfold bind at 1. destruct (length_ h1 c) as [len|?|?|]; try done. destruct (_ =? _)%N.
      + unfold bind. destruct (err_to_panic _ _ h1) as [h3 r3] eqn:E3. apply Hrm in E3. destruct r3; intros [= <- ]; done.
      + unfold bind at 1. destruct (previous_sibling h1 c) as [[p|]|?|?|]; try done; [|intros [= <- ]; apply shr_refl]. unfold bind at 1. destruct (get_node h1 p) as [np|?|?|]; try done.
        destruct (is_type NText np); [|intros [= <- ]; apply shr_refl]. unfold bind at 1. destruct (rbind _ _) as [v|?|?|]; try done. unfold bind at 1.
        destruct (err_to_panic _ (append_data p v) h1) as [h3 r3] eqn:E3. assert (shr h1 h3).
        { unfold err_to_panic, append_data in E3. destruct (is_nil v); [injection E3 as <- <-; apply shr_refl|]. destruct (modifyM p _ h1) as [h4 r4] eqn:E4.
          eapply shr_modify in E4; [|intros n; cbn; split; [apply incl_refl|split; [by left|done]]]. destruct r4; injection E3 as <- <-; done. }
        destruct r3; try done. unfold bind. destruct (err_to_panic _ (remove_child i c) h3) as [h4 r4] eqn:E4. apply Hrm in E4. destruct r4; intros [= <- ]; by eapply shr_trans. }
  apply G; [apply incl_refl|apply shr_refl].
Qed.

(** ** The parser: with every handle new, nothing old changes *)
Definition fpP {A} (N : nat) (h : heap) (m : PM A) : Prop := forall h' r, m h = (h', r) -> frame N (fun j _ => (N <= j)%nat) h h'.
Lemma pfp_bind {A B} N h (m : PM A) (k : A -> PM B) :
  fpP N h m -> (forall h1 a, m h = (h1, POk a) -> frame N (fun j _ => (N <= j)%nat) h h1 -> fpP N h1 (k a)) -> fpP N h (pbind m k).
Proof.
  intros Hm Hk h' r H. unfold pbind in H. destruct (m h) as [h1 [a|e|p|]] eqn:Em; try (injection H as <- <-; by eapply Hm).
  pose proof (Hm _ _ Em) as F. eapply frame_trans; [exact F|]. by eapply (Hk h1 a eq_refl F).
Qed.
Lemma pfp_ret {A} N h (a : A) : fpP N h (pret a). Proof. intros h' r [= <- <-]. apply frame_refl. Qed.
Lemma pfp_fail {A} N h e : fpP N h (@pfail A e). Proof. intros h' r [= <- <-]. apply frame_refl. Qed.
Lemma pfp_decode N h o : fpP N h (pdecode o). Proof. destruct o; [apply pfp_ret|apply pfp_fail]. Qed.
Lemma pfp_unwrap {A} N h (o : option A) : fpP N h (punwrap o). Proof. intros h' r H. unfold punwrap in H. destruct o; injection H as <- <-; apply frame_refl. Qed.
Lemma pfp_dom {A} N h (m : M A) : fpM N (fun j _ => (N <= j)%nat) h m -> fpP N h (pdom m).
Proof. intros Hm h' r H. unfold pdom in H. destruct (m h) as [h1 [a|e|p|]] eqn:Em; injection H as <- <-; by eapply Hm. Qed.
Lemma pdom_ok {A} (m : M A) h h' a : pdom m h = (h', POk a) -> m h = (h', Ok a).
Proof. unfold pdom. destruct (m h) as [h1 [x|?|?|]]; intros [= <- <-]; done. Qed.
Lemma pdom_unwrap_ok {A} (m : M A) h h' a : pdom_unwrap m h = (h', POk a) -> m h = (h', Ok a).
Proof. intros H. apply pdom_ok in H. unfold err_to_panic in H. destruct (m h) as [h1 [x|?|?|]]; try done. Qed.

(** A call that allocates one node whose parent link is empty. *)
Definition makes (N : nat) (h : heap) (m : M id) : Prop :=
  fpM N (fun j _ => (N <= j)%nat) h m /\
  forall h' x, m h = (h', Ok x) -> (N <= x)%nat /\ exists n, h_nodes h' !! x = Some n /\ n_parent n = None.
Lemma makes_alloc N h d (m : heap -> res node) : (N <= h_next h)%nat -> (forall n, m h = Ok n -> n_parent n = None) ->
  makes N h (with_handle d (do? n := lift m in allocM n)).
Proof.
  intros HN Hp. split.
  - apply fp_handle, fp_read. intros n _. by apply fp_alloc.
  - intros h' x H. unfold with_handle, getM, lift, bind, allocM in H. destruct (get_node h d); try done. destruct (m h) as [n|?|?|] eqn:Em; try done.
    injection H as <- <-. split; [done|]. exists n. split; [cbn; apply lookup_insert|by apply Hp].
Qed.
Lemma pfp_append N h (m : M id) parent : (N <= parent)%nat -> makes N h m ->
  (fpP N h (dop? n := pdom m in pdom (append_child parent n))) /\ (fpP N h (dop? n := pdom_unwrap m in pdom (append_child parent n))).
Proof.
  intros HN [F G]. assert (K : forall h1 x, m h = (h1, Ok x) -> fpP N h1 (pdom (append_child parent x))).
  { intros h1 x Hx. destruct (G h1 x Hx) as (Hx1 & n & Hn & Hp). apply pfp_dom. apply fp_insert; [by right|done|done|]. intros q (n' & Hn' & Hq). congruence. }
  split; (apply pfp_bind; [apply pfp_dom; try apply fp_err_to_panic; done|]); intros h1 x Hx _; apply K; [by apply pdom_ok|by apply pdom_unwrap_ok].
Qed.

Ltac mk := unfold create_comment, create_text_node, create_cdata_section, create_element, create_processing_instruction.
Lemma makes_plain N h d n : (N <= h_next h)%nat -> n_parent n = None -> makes N h (with_handle d (allocM n)).
Proof.
  intros HN Hp. split; [by apply fp_handle, fp_alloc|]. intros h' x H. unfold with_handle, getM, lift, bind, allocM in H. destruct (get_node h d); try done.
  injection H as <- <-. split; [done|]. exists n. split; [cbn; apply lookup_insert|done].
Qed.
Lemma makes_named N h d (r : res Name) (f : Name -> node) : (N <= h_next h)%nat -> (forall nm, n_parent (f nm) = None) ->
  makes N h (with_handle d (do? nm := lift (fun _ => r) in allocM (f nm))).
Proof.
  intros HN Hp. split.
  - apply fp_handle, fp_read. intros n _. by apply fp_alloc.
  - intros h' x H. unfold with_handle, getM, lift, bind, allocM in H. destruct (get_node h d); try done. destruct r as [nm|?|?|]; try done.
    injection H as <- <-. split; [done|]. eexists. split; [cbn; apply lookup_insert|by apply Hp].
Qed.
Lemma makes_fail N h d e : makes N h (with_handle d (fail e)).
Proof. split; [apply fp_handle, fp_fail|]. intros h' x H. unfold with_handle, getM, lift, bind in H. by destruct (get_node h d). Qed.
Lemma makes_el N h d s : (N <= h_next h)%nat -> makes N h (create_element d s).
Proof. intros. by apply makes_named. Qed.
Lemma pfp_comment N h d p t : (N <= h_next h)%nat -> (N <= p)%nat -> fpP N h (handle_comment d p t).
Proof. intros H1 H2. apply pfp_bind; [apply pfp_decode|]. intros h1 x _ F. apply pfp_append; [done|]. apply makes_plain; [pose proof (fr_next _ _ _ _ F); lia|done]. Qed.
Lemma pfp_text N h d p t : (N <= h_next h)%nat -> (N <= p)%nat -> fpP N h (handle_text d p t).
Proof. intros H1 H2. apply pfp_bind; [apply pfp_decode|]. intros h1 x _ F. apply pfp_append; [done|]. apply makes_plain; [pose proof (fr_next _ _ _ _ F); lia|done]. Qed.
Lemma pfp_cdata N h d p t : (N <= h_next h)%nat -> (N <= p)%nat -> fpP N h (handle_cdata d p t).
Proof. intros H1 H2. apply pfp_bind; [apply pfp_decode|]. intros h1 x _ F. apply pfp_append; [done|]. apply makes_plain; [pose proof (fr_next _ _ _ _ F); lia|done]. Qed.
Lemma pfp_pi N h d p t : (N <= h_next h)%nat -> (N <= p)%nat -> fpP N h (handle_pi d p t).
Proof.
  intros H1 H2. apply pfp_bind; [apply pfp_decode|]. intros h1 x _ F. destruct (pi_parts x) as [tg data]. apply pfp_append; [done|].
  unfold create_processing_instruction. destruct (str_eqb _ _); [apply makes_fail|]. apply makes_named; [pose proof (fr_next _ _ _ _ F); lia|done].
Qed.
Lemma pfp_attributes E N d e l : (N <= d)%nat -> (N <= e)%nat -> forall h, lt_next h -> (N <= h_next h)%nat -> fpP N h (handle_attributes E d e l).
Proof.
  intros Hd He. induction l as [|a l IH]; intros h HL HN; cbn [handle_attributes]; [apply pfp_ret|]. destruct a as [nm v| |]; [| |apply pfp_fail].
  2:{ intros h' r [= <- <-]. apply frame_refl. }
  apply pfp_bind; [apply pfp_dom, fp_handle, fp_read; intros; by apply fp_alloc_attribute|]. intros h1 a Ha F1. apply pdom_ok in Ha.
  pose proof (fr_next _ _ _ _ F1) as N1.
  assert (Hown : (N <= a)%nat /\ exists na, h_nodes h1 !! a = Some na /\ n_owner na = Some d).
  { unfold create_attribute_with, with_handle, getM, lift, bind, allocM in Ha. destruct (get_node h d); try done. destruct (name_from_str nm); try done.
    destruct (new_attribute d a1 (Some v) h) as [h2 [na|?|?|]] eqn:En; try done. destruct (new_attribute_owner _ _ _ _ _ _ En) as [G1 G2]. injection Ha as <- <-.
    split; [lia|]. exists na. split; [cbn; apply lookup_insert|done]. }
  destruct Hown as (Ha1 & na & Hna & Ho). pose proof (fr_lt _ _ _ _ F1 HL) as HL1.
  apply pfp_bind.
  - apply pfp_dom. eapply fp_weaken; [| |by apply fp_set_attribute_node]; [lia|]. cbn beta. intros j f Hj [_ [->|[->|(n & Hn & Hj')]]]; [done|done|]. congruence.
  - intros h2 x _ F2. apply IH; [by apply (fr_lt _ _ _ _ F2)|]. pose proof (fr_next _ _ _ _ F2). lia.
Qed.
(** Only the value a computation returns. *)
Definition yields {A} (P : A -> Prop) (m : M A) : Prop := forall h h' a, m h = (h', Ok a) -> P a.
Lemma y_bind {A B} (P : B -> Prop) (m : M A) (k : A -> M B) : (forall a, yields P (k a)) -> yields P (bind m k).
Proof. intros Hk h h' b H. unfold bind in H. destruct (m h) as [h1 [a|?|?|]]; try done. by eapply Hk. Qed.
Lemma y_ret {A} (P : A -> Prop) a : P a -> yields P (ret a). Proof. intros H h h' x [= <- <-]. done. Qed.
Lemma y_fail {A} (P : A -> Prop) e : yields P (fail e). Proof. by intros h h' x [=]. Qed.
Lemma y_panic {A} (P : A -> Prop) e : yields P (panic_ e). Proof. by intros h h' x [=]. Qed.
Lemma y_insert p c r : yields (fun x => x = c) (insert_before p c r).
Proof.
  unfold insert_before. apply y_bind. intros np. apply y_bind. intros nc. destruct (negb _); [apply y_fail|]. apply y_bind. intros b. destruct b; [apply y_fail|].
  apply y_bind. intros pos. apply y_bind. intros _. apply y_bind. intros par. apply y_bind. intros _. destruct (bool_decide _); [apply y_panic|].
  apply y_bind. intros _. apply y_bind. intros _. by apply y_ret.
Qed.
Lemma pfp_start E N h d p nm attrs : (N <= d)%nat -> (N <= p)%nat -> lt_next h -> (N <= h_next h)%nat -> fpP N h (handle_start E d p nm attrs).
Proof.
  intros Hd Hp HL HN. apply pfp_bind; [apply pfp_decode|]. intros h0 s Hs _. assert (h0 = h) as -> by (destruct nm; by injection Hs).
  destruct (makes_el N h d s HN) as [F G]. apply pfp_bind; [by apply pfp_dom, fp_err_to_panic|]. intros h1 el Hel F1. apply pdom_unwrap_ok in Hel.
  destruct (G h1 el Hel) as (He & n & Hn & Hpar). pose proof (fr_next _ _ _ _ F1) as N1. pose proof (fr_lt _ _ _ _ F1 HL) as HL1.
  apply pfp_bind; [apply pfp_dom, fp_insert; [by right|done|done|]; intros q (n' & Hn' & Hq); congruence|]. intros h2 el' Hel' F2.
  pose proof (fr_next _ _ _ _ F2) as N2. pose proof (fr_lt _ _ _ _ F2 HL1) as HL2. apply pdom_ok in Hel'.
  assert (el' = el) as ->.
  { by eapply y_insert. }
  apply pfp_bind; [apply pfp_attributes; [done|done|done|lia]|]. intros. apply pfp_ret.
Qed.
Lemma y_start E d p nm attrs N h h' el : (N <= h_next h)%nat -> handle_start E d p nm attrs h = (h', POk el) -> (N <= el)%nat.
Proof.
  intros HN H. unfold handle_start, pbind in H. destruct nm as [s|]; [|done]. cbn [pdecode pret] in H. unfold pret in H.
  destruct (makes_el N h d s HN) as [_ G]. destruct (pdom_unwrap (create_element d s) h) as [h1 [e|?|?|]] eqn:He; try done. apply pdom_unwrap_ok in He.
  destruct (G _ _ He) as [G1 _]. destruct (pdom (append_child p e) h1) as [h2 [e2|?|?|]] eqn:He2; try done. apply pdom_ok, y_insert in He2. subst e2.
  destruct (handle_attributes E d e attrs h2) as [h3 [?|?|?|]]; try done. by injection H as _ <-.
Qed.
Lemma pfp_decl N h d v e s : (N <= d)%nat -> fpP N h (handle_decl d v e s).
Proof.
  intros Hd. apply pfp_bind; [apply pfp_dom, fp_lift|]. intros h0 o _ _. destruct o; [apply pfp_fail|]. apply pfp_bind.
  - apply pfp_bind; [apply pfp_unwrap|]. intros h1 x _ _. apply pfp_bind.
    { intros h' r. destruct (unquote x); intros [= <- <-]; apply frame_refl. }
    intros h2 y _ _. apply pfp_bind; [destruct e; [apply pfp_bind; [apply pfp_unwrap|intros; apply pfp_ret]|apply pfp_ret]|]. intros h3 z _ _.
    apply pfp_bind; [destruct s; [apply pfp_bind; [apply pfp_unwrap|intros; apply pfp_ret]|apply pfp_ret]|]. intros. apply pfp_ret.
  - intros h1 r _ _. apply pfp_bind; [apply pfp_unwrap|]. intros h2 x _ _. apply pfp_bind; [apply pfp_dom, fp_lift|]. intros h3 y _ _. by apply pfp_dom, fp_set_xml_decl.
Qed.
Lemma element_frame E N d k : (N <= d)%nat -> forall evs p h h' rest r, (N <= p)%nat -> lt_next h -> (N <= h_next h)%nat ->
  element k E d p evs h = (h', rest, r) -> frame N (fun j _ => (N <= j)%nat) h h'.
Proof.
  intros Hd. induction k as [|k IH]; intros evs p h h' rest r Hp HL HN H; cbn [element] in H; [injection H as <- <- <-; apply frame_refl|].
  assert (St : forall {A} (m : PM A) l, fpP N h m ->
    match m h with (h1, POk _) => element k E d p l h1 | (h1, PErr e) => (h1, l, PErr e) | (h1, PPanic q) => (h1, l, PPanic q) | (h1, PDiverge) => (h1, l, PDiverge) end = (h', rest, r) ->
    frame N (fun j _ => (N <= j)%nat) h h').
  { intros A m l Hm Hs. destruct (m h) as [h1 [a|e|q|]] eqn:Em; try (injection Hs as <- <- <-; by eapply Hm). pose proof (Hm _ _ Em) as F. eapply frame_trans; [exact F|].
    eapply (IH l p h1); [done|by apply (fr_lt _ _ _ _ F)|pose proof (fr_next _ _ _ _ F); lia|done]. }
  destruct evs as [|ev evs]; [injection H as <- <- <-; apply frame_refl|].
  destruct ev as [v e s|nm attrs|nm attrs| |t|t|t|t| |]; try (injection H as <- <- <-; apply frame_refl);
    try (eapply St; [|exact H]; (by apply pfp_comment || by apply pfp_text || by apply pfp_cdata || by apply pfp_pi || by apply pfp_start)).
  pose proof (pfp_start E N h d p nm attrs Hd Hp HL HN) as Hs. destruct (handle_start E d p nm attrs h) as [h1 [el|e|q|]] eqn:Em; try (injection H as <- <- <-; by eapply Hs).
  pose proof (Hs _ _ Em) as F1. pose proof (y_start _ _ _ _ _ N _ _ _ HN Em) as Hel. pose proof (fr_lt _ _ _ _ F1 HL) as HL1. pose proof (fr_next _ _ _ _ F1) as N1.
  destruct (element k E d el evs h1) as [[h2 rest2] r2] eqn:E2. assert (F2 : frame N (fun j _ => (N <= j)%nat) h1 h2) by (eapply IH; [| | |exact E2]; [done|done|lia]).
  pose proof (frame_trans _ _ _ _ _ F1 F2) as F12. destruct r2; try (injection H as <- <- <-; done). eapply frame_trans; [exact F12|].
  eapply IH; [| | |exact H]; [done|by apply (fr_lt _ _ _ _ F12)|]. pose proof (fr_next _ _ _ _ F12). lia.
Qed.
Lemma document_frame E N d k : (N <= d)%nat -> forall evs h h' r, lt_next h -> (N <= h_next h)%nat ->
  document_loop k E d evs h = (h', r) -> frame N (fun j _ => (N <= j)%nat) h h'.
Proof.
  intros Hd. induction k as [|k IH]; intros evs h h' r HL HN H; cbn [document_loop] in H; [injection H as <- <-; apply frame_refl|].
  assert (St : forall {A} (m : PM A) l, fpP N h m ->
    match m h with (h1, POk _) => document_loop k E d l h1 | (h1, PErr e) => (h1, PErr e) | (h1, PPanic q) => (h1, PPanic q) | (h1, PDiverge) => (h1, PDiverge) end = (h', r) ->
    frame N (fun j _ => (N <= j)%nat) h h').
  { intros A m l Hm Hs. destruct (m h) as [h1 [a|e|q|]] eqn:Em; try (injection Hs as <- <-; by eapply Hm). pose proof (Hm _ _ Em) as F. eapply frame_trans; [exact F|].
    eapply (IH l h1); [by apply (fr_lt _ _ _ _ F)|pose proof (fr_next _ _ _ _ F); lia|done]. }
  destruct evs as [|ev evs]; [injection H as <- <-; apply frame_refl|].
  destruct ev as [v e s|nm attrs|nm attrs| |t|t|t|t| |]; try (injection H as <- <-; apply frame_refl);
    try (eapply St; [|exact H]; (by apply pfp_comment || by apply pfp_pi || by apply pfp_start || by apply pfp_decl)).
  2:{ by eapply IH. }
  pose proof (pfp_start E N h d d nm attrs Hd Hd HL HN) as Hs. destruct (handle_start E d d nm attrs h) as [h1 [el|e|q|]] eqn:Em; try (injection H as <- <-; by eapply Hs).
  pose proof (Hs _ _ Em) as F1. pose proof (y_start _ _ _ _ _ N _ _ _ HN Em) as Hel. pose proof (fr_lt _ _ _ _ F1 HL) as HL1. pose proof (fr_next _ _ _ _ F1) as N1.
  destruct (element (S (length evs)) E d el evs h1) as [[h2 rest2] r2] eqn:E2. assert (F2 : frame N (fun j _ => (N <= j)%nat) h1 h2) by (eapply element_frame; [| | | |exact E2]; [done|done|done|lia]).
  pose proof (frame_trans _ _ _ _ _ F1 F2) as F12. assert (Hrest : forall l, document_loop k E d l h2 = (h', r) -> frame N (fun j _ => (N <= j)%nat) h h').
  { intros l Hl. eapply frame_trans; [exact F12|]. eapply IH; [| |exact Hl]; [by apply (fr_lt _ _ _ _ F12)|]. pose proof (fr_next _ _ _ _ F12). lia. }
  destruct r2; try (injection H as <- <-; done); by eapply Hrest.
Qed.
Lemma fp_read_xml E N (W : id -> part -> Prop) h evs : lt_next h -> (N <= h_next h)%nat -> fpM N W h (read_xml_op E evs).
Proof.
  intros HL HN. eapply (fp_weaken N N W (fun j _ => (N <= j)%nat)); [done|intros j f Hj Hj'; lia|]. intros h' r H.
  assert (G : forall hh rr, read_events E evs h = (hh, rr) -> frame N (fun j _ => (N <= j)%nat) h hh).
  { intros hh rr Hr. unfold read_events in Hr. assert (Fc : fpM N (fun j _ => (N <= j)%nat) h (create_document None None None)) by (by apply fp_create_document).
    destruct (pdom_unwrap (create_document None None None) h) as [h1 [d|e|q|]] eqn:Ec; try (injection Hr as <- <-; by eapply (pfp_dom N h _ (fp_err_to_panic _ _ _ PUnwrap _ Fc))).
    apply pdom_unwrap_ok in Ec. pose proof (Fc _ _ Ec) as F1. eapply frame_trans; [exact F1|].
    eapply document_frame; [| | |exact Hr]; [|by apply (fr_lt _ _ _ _ F1)|pose proof (fr_next _ _ _ _ F1); lia].
    unfold create_document, create_document_with_options, bind, ret, allocM in Ec. injection Ec as <- <-. done. }
  unfold read_xml_op in H. destruct (read_events E evs h) as [h1 [d|[]|q|]] eqn:Er; injection H as <- <-; exact (G _ _ eq_refl).
Qed.

(** ** The whole library *)
Lemma exec_frame E h o h' r : wf_env E -> Inv h -> exec E o h = (h', r) -> (forall l, o <> ODrop l) -> frame (h_next h) (writes h o) h h'.
Proof.
  intros HE HI H Hnd. assert (HL : lt_next h) by (intros j n; apply inv_lt; done).
  assert (NN : (h_next h <= h_next h)%nat) by done.
  assert (G : fpM (h_next h) (writes h o) h (exec E o)); [|by eapply G].
  assert (Hnm : forall d (r : res Name) f, fpM (h_next h) (writes h o) h (with_handle d (do? nm := lift (fun _ => r) in allocM (f nm)))).
  { intros. apply fp_handle, fp_read. intros. by apply fp_alloc. }
  assert (Hat : forall d (r : res Name) v, fpM (h_next h) (writes h o) h (with_handle d (do? nm := lift (fun _ => r) in do? a := new_attribute d nm v in allocM a))).
  { intros. apply fp_handle, fp_read. intros. by apply fp_alloc_attribute. }
  destruct o; cbn [exec]; try (exfalso; by eapply Hnd); try (apply fp_out); try (apply Hnm); try (apply Hat);
    try (by apply fp_handle, fp_alloc); try (by apply fp_create_document); try (by apply fp_read_xml);
    try (by (apply fp_append_data || apply fp_insert_data || apply fp_delete_data || apply fp_replace_data)).
  - apply fp_read. intros. by apply fp_alloc.
  - unfold create_processing_instruction. destruct (str_eqb _ _); [apply fp_handle, fp_fail|]. apply Hnm.
  - apply fp_insert; [by left|cbn; tauto|cbn; tauto|cbn; tauto].
  - apply fp_insert; [by left|cbn; tauto|cbn; tauto|cbn; tauto].
  - apply fp_replace; [done|cbn; tauto|cbn; tauto|cbn; tauto|cbn; tauto].
  - apply fp_remove_child; cbn; tauto.
  - by apply fp_clone.
  - apply fp_normalize; cbn; [tauto|tauto|]. intros c q j H1 H2 H3 H4 H5. right. right. split; [done|]. split; [done|]. by exists c, q.
  - apply fp_modify. intros. by apply same_value.
  - apply fp_modify. intros. by apply same_value.
  - apply fp_split; [done|done|cbn; tauto|cbn; tauto].
  - apply fp_attr_set_value; [done|cbn; tauto].
  - apply fp_modify. intros. by apply same_children.
  - apply fp_read. intros. apply fp_set_new_attribute; [done|done|cbn; tauto|cbn; tauto].
  - apply fp_read. intros. apply fp_set_new_attribute; [done|done|cbn; tauto|cbn; tauto].
  - by apply fp_set_attribute_node.
  - apply fp_read. intros [a|] Ha; [|apply fp_ret]. apply fp_bind; [|intros; apply fp_ret]. apply fp_remove_attribute_node; [cbn; tauto|].
    right. split; [done|]. destruct (h_nodes h !! e) as [n|] eqn:Hn; [|unfold get_attribute_node, get_node in Ha; by rewrite Hn in Ha].
    destruct (get_attribute_node_in _ _ _ _ _ _ HE Hn Ha) as (k & attrs & ns & H1 & H2). by exists n, attrs, ns, k.
  - apply fp_read. intros [a|] Ha; [|apply fp_ret]. apply fp_bind; [|intros; apply fp_ret]. apply fp_remove_attribute_node; [cbn; tauto|].
    right. split; [done|]. destruct (h_nodes h !! e) as [n|] eqn:Hn; [|unfold get_attribute_node_ns, get_node in Ha; by rewrite Hn in Ha].
    destruct (get_attribute_node_ns_in _ _ _ _ _ _ _ HE Hn Ha) as (k & attrs & ns & H1 & H2). by exists n, attrs, ns, k.
  - apply fp_remove_attribute_node; cbn; tauto.
  - by apply fp_set_xml_decl.
Qed.
