(** * ProofGuardPart: guards on nodes of another part of the state do not matter *)
From Coq Require Import Lia.
From Verif Require Import SpecGuard ProofBorrow ProofName ProofInv ProofSteps ProofElem ProofAttr ProofGuard.

Section part.
  Context (S : id -> Prop) (G : guards) (HG : forall i b, (i, b) ∈ G -> ~ S i).
  Definition oS (o : option id) : Prop := forall j, o = Some j -> S j.
  Definition lS (l : list id) : Prop := forall j, In j l -> S j.
  Record nin (n : node) : Prop := { ni_children : lS (n_children n); ni_parent : oS (n_parent n); ni_owner : oS (n_owner n); ni_ext : lS (ext_links (n_ext n)) }.
  Lemma oS_in o : oS o <-> lS match o with Some i => [i] | None => [] end.
  Proof. destruct o as [i|]; split; intros H j Hj; [cbn in Hj; destruct Hj as [->|[]]; by apply H|injection Hj as ->; apply H; by left|done|done]. Qed.
  Lemma lS_app l l' : lS (l ++ l') <-> lS l /\ lS l'.
  Proof. unfold lS. setoid_rewrite in_app_iff. firstorder. Qed.
  Lemma nin_links n : nin n <-> forall j, In j (node_links n) -> S j.
  Proof.
    change (nin n <-> lS (node_links n)). unfold node_links. rewrite !lS_app, <- !oS_in. split; [intros [? ? ? ?]; tauto|]. intros (? & ? & ? & ?). by split.
  Qed.
  Lemma part_node h i n : part S h -> S i -> h_nodes h !! i = Some n -> nin n.
  Proof. intros [Hp _] Hi Hn. apply nin_links. eauto. Qed.
  Lemma oS_none : oS None. Proof. by intros j. Qed.
  Lemma oS_some i : S i -> oS (Some i). Proof. by intros Hi j [= <-]. Qed.
  Lemma lS_nil : lS []. Proof. by intros j []. Qed.
  Lemma lS_cons i l : S i -> lS l -> lS (i :: l). Proof. intros Hi Hl j [<-|Hj]; [done|by apply Hl]. Qed.
  Lemma lS_delete k l : lS l -> lS (delete k l).
  Proof.
    revert k. induction l as [|x l IH]; intros k Hl; [by destruct k|]. assert (Ht : lS l) by (intros j Hj; apply Hl; by right).
    destruct k as [|k]; [done|]. apply lS_cons; [apply Hl; by left|by apply IH].
  Qed.
  Lemma lS_lookup k l : lS l -> oS (l !! k).
  Proof. intros Hl j Hj. apply Hl, elem_of_list_In. by eapply elem_of_list_lookup_2. Qed.
  Lemma lS_head l : lS l -> oS (head l). Proof. intros Hl j Hj. destruct l; [done|]. injection Hj as ->. apply Hl. by left. Qed.
  Lemma lS_vec k x l l' : S x -> lS l -> vec_insert k x l = Some l' -> lS l'.
  Proof.
    intros Hx Hl. unfold vec_insert. destruct (k <=? length l)%nat; [|done]. intros [= <-]. rewrite lS_app. split; [|apply lS_cons; [done|]].
    - intros j Hj. apply Hl. rewrite <- (take_drop k l). apply in_app_iff. by left.
    - intros j Hj. apply Hl. rewrite <- (take_drop k l). apply in_app_iff. by right.
  Qed.
  Lemma lS_insert {K} `{EqDecision K} (k : K) v m : S v -> lS (map snd m) -> lS (map snd (hm_insert k v m)).
  Proof.
    intros Hv. induction m as [|[k1 v1] m IH]; cbn [hm_insert map]; intros Hm; [by apply lS_cons|].
    destruct (bool_decide (k1 = k)); cbn [map]; intros j [Hj|Hj].
    - cbn in Hj. by subst. - apply Hm. by right. - apply Hm. by left. - apply IH; [|done]. intros x Hx. apply Hm. by right.
  Qed.
  Lemma lS_remove {K} `{EqDecision K} (k : K) m : lS (map snd m) -> lS (map snd (hm_remove k m)).
  Proof.
    induction m as [|[k1 v1] m IH]; cbn [hm_remove map]; intros Hm; [done|].
    destruct (bool_decide (k1 = k)); cbn [map].
    - intros x Hx. apply Hm. by right. - intros j [Hj|Hj]; [apply Hm; by left|]. apply IH; [|done]. intros x Hx. apply Hm. by right.
  Qed.
  Lemma lS_get {K} `{EqDecision K} (k : K) m : lS (map snd m) -> oS (hm_get k m).
  Proof.
    induction m as [|[k1 v1] m IH]; cbn [hm_get map]; intros Hm; [apply oS_none|].
    destruct (bool_decide (k1 = k)); [apply oS_some, Hm; by left|]. apply IH. intros x Hx. apply Hm. by right.
  Qed.
  Lemma oS_upgrade h o : oS o -> oS (upgrade h o).
  Proof. intros Ho j Hj. apply Ho. unfold upgrade in Hj. destruct o as [i|]; [|done]. by destruct (alive h i); simplify_eq. Qed.

  Definition foot {A} (g : guards) (Q : A -> Prop) (m : B A) : Prop := forall h, part S h ->
    m (g ++ G) h = m g h /\ part S (m g h).1 /\ (forall a, (m g h).2 = Ok a -> Q a).
  Lemma foot_weak {A} g (Q Q' : A -> Prop) m : foot g Q m -> (forall a, Q a -> Q' a) -> foot g Q' m.
  Proof. intros H HQ h Hp. destruct (H h Hp) as (H1 & H2 & H3). eauto 6. Qed.
  Lemma foot_ret {A} g (Q : A -> Prop) a : Q a -> foot g Q (b_ret a).
  Proof. intros Ha h Hp. repeat split; try apply Hp. by intros a' [= <-]. Qed.
  Lemma foot_stop {A} g (Q : A -> Prop) m : (forall g h, (m g h).1 = h /\ m g h = m [] h /\ forall a, (m g h).2 <> Ok a) -> foot g Q m.
  Proof. intros Hm h Hp. destruct (Hm (g ++ G) h) as (_ & -> & _). destruct (Hm g h) as (H1 & H2 & H3). split; [done|]. rewrite H1. split; [done|]. intros a Ha. by destruct (H3 a). Qed.
  Lemma foot_fail {A} g (Q : A -> Prop) e : foot g Q (b_fail e). Proof. by apply foot_stop. Qed.
  Lemma foot_panic {A} g (Q : A -> Prop) p : foot g Q (b_panic p). Proof. by apply foot_stop. Qed.
  Lemma foot_diverge {A} g (Q : A -> Prop) : foot g Q (fun _ h => (h, Diverge)). Proof. by apply foot_stop. Qed.
  Lemma foot_pure {A} g (Q : A -> Prop) r : (forall a, r = Ok a -> Q a) -> foot g Q (b_pure r).
  Proof. intros Hr h Hp. repeat split; try apply Hp. done. Qed.
  Lemma foot_pure_any {A} g r : foot (A := A) g (fun _ => True) (b_pure r). Proof. by apply foot_pure. Qed.
  Lemma foot_unwrap g o : oS o -> foot g S (b_pure (unwrap_opt o)).
  Proof. intros Ho. apply foot_pure. intros a Ha. apply Ho. destruct o; by inversion Ha. Qed.
  Lemma foot_upgrade g o : oS o -> foot g oS (b_upgrade o).
  Proof. intros Ho h Hp. repeat split; try apply Hp. intros a [= <-]. by apply oS_upgrade. Qed.
  Lemma foot_bind {A C} g (Q : A -> Prop) (Q' : C -> Prop) (m : B A) (k : A -> B C) : foot g Q m -> (forall a, Q a -> foot g Q' (k a)) -> foot g Q' (b_bind m k).
  Proof.
    intros Hm Hk h Hp. destruct (Hm h Hp) as (H1 & H2 & H3). unfold b_bind, bind. rewrite H1. destruct (m g h) as [h1 [a|e|p|]]; cbn in *; [by apply Hk; [apply H3|]|done..].
  Qed.
  Lemma foot_borrow {A} g (Q : A -> Prop) i k : S i -> (forall n, nin n -> foot ((i, false) :: g) Q (k n)) -> foot g Q (borrow i k).
  Proof.
    intros Hi Hk h Hp. unfold borrow. destruct (h_nodes h !! i) as [n|] eqn:Hn; [|done].
    assert (Hno : (i, true) ∉ G) by (intros H; by apply HG in H).
    destruct (decide ((i, true) ∈ g)) as [H|H].
    - rewrite !bool_decide_true by set_solver. done.
    - rewrite !bool_decide_false by set_solver. apply (Hk n); [by eapply part_node|done].
  Qed.
  Lemma foot_borrow_mut {A} g (Q : A -> Prop) i k : S i -> (forall n, nin n -> foot ((i, true) :: g) Q (k n)) -> foot g Q (borrow_mut i k).
  Proof.
    intros Hi Hk h Hp. unfold borrow_mut. destruct (h_nodes h !! i) as [n|] eqn:Hn; [|done].
    assert (Hno : forall b, (i, b) ∉ G) by (intros b H; by apply HG in H). pose proof (Hno true). pose proof (Hno false).
    destruct (decide ((i, true) ∈ g \/ (i, false) ∈ g)) as [H2|H2].
    - rewrite !bool_decide_true by set_solver. done.
    - rewrite !bool_decide_false by set_solver. apply (Hk n); [by eapply part_node|done].
  Qed.
  Lemma part_modify h i n n' : part S h -> S i -> h_nodes h !! i = Some n -> nin n' -> part S (mkHeap (<[i:=n']> (h_nodes h)) (h_next h)).
  Proof.
    intros Hp Hi Hn Hn'. split; [|apply Hp]. cbn. intros j m Hj Hm. apply nin_links. destruct (decide (i = j)) as [->|Hne].
    - rewrite lookup_insert in Hm. by simplify_eq. - rewrite lookup_insert_ne in Hm by done. by eapply part_node.
  Qed.
  Lemma foot_write g i f : S i -> (i, true) ∈ g -> (forall n, nin n -> nin (f n)) -> foot g (fun _ => True) (write i f).
  Proof.
    intros Hi Hg Hf h Hp. rewrite !write_ok by set_solver. split; [done|]. split; [|done]. unfold modifyM. destruct (h_nodes h !! i) as [n|] eqn:Hn; [|done].
    eapply part_modify; [done..|]. apply Hf. by eapply part_node.
  Qed.
  Lemma foot_free {A} g (Q : A -> Prop) (m : M A) : (forall h, part S h -> part S (m h).1 /\ forall a, (m h).2 = Ok a -> Q a) -> foot g Q (b_free m).
  Proof. intros Hm h Hp. split; [done|]. by apply Hm. Qed.
  Lemma part_alloc h n : part S h -> nin n -> part S (allocM n h).1 /\ forall a, (allocM n h).2 = Ok a -> S a.
  Proof.
    intros Hp Hn. split.
    - split; cbn.
      + intros j m Hj Hm. apply nin_links. destruct (decide (h_next h = j)) as [<-|Hne]; [rewrite lookup_insert in Hm; by simplify_eq|]. rewrite lookup_insert_ne in Hm by done. by eapply part_node.
      + intros k Hk. apply (proj2 Hp). lia.
    - intros a [= <-]. apply (proj2 Hp). done.
  Qed.
  Lemma foot_alloc g n : nin n -> foot g S (b_free (allocM n)).
  Proof. intros Hn. apply foot_free. intros h Hp. by apply part_alloc. Qed.
  Lemma foot_err {A} g (Q : A -> Prop) p m : foot g Q m -> foot g Q (b_err_to_panic p m).
  Proof.
    intros Hm h Hp. destruct (Hm h Hp) as (H1 & H2 & H3). unfold b_err_to_panic, err_to_panic. rewrite H1. split; [done|]. destruct (m g h) as [h1 [a|e|q|]]; cbn in *; by split.
  Qed.
  Lemma foot_at {A} g (Q : A -> Prop) (f : heap -> B A) : (forall h, foot g Q (f h)) -> foot g Q (fun g h => f h g h).
  Proof. intros H h Hp. by apply H. Qed.
  Lemma foot_map {A C} g (P : A -> Prop) (Q : C -> Prop) (f : A -> B C) : (forall x, P x -> foot g Q (f x)) -> forall l, (forall x, In x l -> P x) -> foot g (fun l => forall y, In y l -> Q y) (b_map f l).
  Proof.
    intros Hf. induction l as [|x l IH]; cbn [b_map]; intros Hl; [by apply foot_ret|].
    eapply foot_bind; [apply Hf, Hl; by left|]. intros y Hy. eapply foot_bind; [apply IH; intros; apply Hl; by right|]. intros ys Hys. apply foot_ret. intros z [<-|Hz]; [done|by apply Hys].
  Qed.
  Lemma foot_iter {A} g (P : A -> Prop) (f : A -> B unit) : (forall x, P x -> foot g (fun _ => True) (f x)) -> forall l, (forall x, In x l -> P x) -> foot g (fun _ => True) (b_iter f l).
  Proof.
    intros Hf. induction l as [|x l IH]; cbn [b_iter]; intros Hl; [by apply foot_ret|]. eapply foot_bind; [apply Hf, Hl; by left|]. intros _ _. apply IH. intros. apply Hl. by right.
  Qed.

  (** ** Nodes *)
  Lemma nin_value v n : nin n -> nin (set_value v n). Proof. by intros []. Qed.
  Lemma nin_set_children l n : lS l -> nin n -> nin (set_children l n). Proof. by intros Hl []. Qed.
  Lemma nin_set_parent o n : oS o -> nin n -> nin (set_parent o n). Proof. by intros Ho []. Qed.
  Lemma nin_set_owner o n : oS o -> nin n -> nin (set_owner o n). Proof. by intros Ho []. Qed.
  Lemma nin_set_ext x n : lS (ext_links x) -> nin n -> nin (set_ext x n). Proof. by intros Hx []. Qed.
  Lemma nin_plain t nm v d x : S d -> ext_links x = [] -> nin (mkNode t nm v None (Some d) [] x).
  Proof. intros Hd Hx. split; cbn; [apply lS_nil|apply oS_none|by apply oS_some|]. rewrite Hx. apply lS_nil. Qed.
  Lemma foot_new_attribute g d nm v : S d -> foot g nin (b_free (new_attribute d nm (Some v))).
  Proof.
    intros Hd. apply foot_free. intros h Hp. unfold new_attribute, bind. assert (Ht : nin (new_text d v)) by (by apply nin_plain). destruct (part_alloc h _ Hp Ht) as [H1 H2].
    unfold allocM in *. cbn in *. split; [done|]. intros a [= <-]. split; cbn; [apply lS_cons; [by apply H2|apply lS_nil]|apply oS_none|by apply oS_some|apply lS_nil].
  Qed.
  Lemma foot_with g d m : (forall h, part S h -> part S (m h).1 /\ forall a, (m h).2 = Ok a -> S a) -> foot g S (b_free (with_handle d m)).
  Proof. intros Hm. apply foot_free. intros h Hp. unfold with_handle, bind. rewrite getM_eq. unfold get_node. destruct (h_nodes h !! d); [by apply Hm|done]. Qed.
  Lemma foot_create_text g d s : S d -> foot g S (b_free (create_text_node d s)).
  Proof. intros Hd. apply foot_with. intros h Hp. apply part_alloc; [done|]. by apply nin_plain. Qed.
  Lemma foot_create_element g d s : S d -> foot g S (b_free (create_element d s)).
  Proof. intros Hd. apply foot_with. intros h Hp. unfold bind, lift. destruct (name_from_str s); try done. apply part_alloc; [done|]. by apply nin_plain. Qed.
  Lemma foot_create_element_ns g d u s : S d -> foot g S (b_free (create_element_ns d u s)).
  Proof. intros Hd. apply foot_with. intros h Hp. unfold bind, lift. destruct (name_new_ns u s); try done. apply part_alloc; [done|]. by apply nin_plain. Qed.

  (** ** Functions *)
  Notation any := (fun _ => True).
  Ltac fb := eapply foot_bind.
  Ltac stop := first [apply foot_fail | apply foot_panic | apply foot_diverge | by apply foot_ret].
  Lemma f_node_name g i : S i -> foot g any (b_node_name i). Proof. intros Hi. apply foot_borrow; [done|]. intros. stop. Qed.
  Lemma f_node_value g i : S i -> foot g any (b_node_value i). Proof. intros Hi. apply foot_borrow; [done|]. intros. stop. Qed.
  Lemma f_node_type g i : S i -> foot g any (b_node_type i). Proof. intros Hi. apply foot_borrow; [done|]. intros. stop. Qed.
  Lemma f_child_nodes g i : S i -> foot g lS (b_child_nodes i). Proof. intros Hi. apply foot_borrow; [done|]. intros n Hn. apply foot_ret, Hn. Qed.
  Lemma f_is g t i : S i -> foot g any (b_is t i). Proof. intros Hi. apply foot_borrow; [done|]. intros. stop. Qed.
  Lemma f_has_child_nodes g i : S i -> foot g any (b_has_child_nodes i). Proof. intros Hi. fb; [by apply f_child_nodes|]. intros. stop. Qed.
  Lemma f_as_unwrap g t i : S i -> foot g any (b_as_unwrap t i). Proof. intros Hi. fb; [by apply f_is|]. intros [] _; stop. Qed.
  Lemma f_owner_document g i : S i -> foot g oS (b_owner_document i). Proof. intros Hi. apply foot_borrow; [done|]. intros n Hn. apply foot_upgrade, Hn. Qed.
  Lemma f_parent_node g i : S i -> foot g oS (b_parent_node i).
  Proof. intros Hi. fb; [by apply f_is|]. intros [] _; [stop|]. apply foot_borrow; [done|]. intros n Hn. apply foot_upgrade, Hn. Qed.
  Lemma f_sibling g pick i : (forall k l, lS l -> oS (pick k l)) -> S i -> foot g oS (b_sibling pick i).
  Proof.
    intros Hpk Hi. fb; [by apply f_is|]. intros [] _; [stop|]. apply foot_borrow; [done|]. intros n Hn. fb; [apply foot_upgrade, Hn|]. intros [p|] Hp; [|stop].
    apply foot_borrow; [by apply Hp|]. intros np Hnp. apply foot_ret. destruct (position i (n_children np)); [|apply oS_none]. apply Hpk, Hnp.
  Qed.
  Lemma f_previous g i : S i -> foot g oS (b_previous_sibling i).
  Proof. apply f_sibling. intros [|k] l Hl; [apply oS_none|by apply lS_lookup]. Qed.
  Lemma f_next g i : S i -> foot g oS (b_next_sibling i).
  Proof. apply f_sibling. intros k l Hl. by apply lS_lookup. Qed.
  Lemma f_data g i : S i -> foot g any (b_data i).
  Proof. intros Hi. fb; [by apply f_node_type|]. intros t _. fb; [by apply f_node_value|]. intros. stop. Qed.
  Lemma f_length g i : S i -> foot g any (b_length i). Proof. intros Hi. fb; [by apply f_data|]. intros. stop. Qed.
  Lemma f_substring g E i o c : S i -> foot g any (b_substring_data E i o c).
  Proof. intros Hi. fb; [apply foot_pure_any|]. intros e _. destruct (e =? o)%N; [stop|]. apply foot_borrow; [done|]. intros. apply foot_pure_any. Qed.
  Lemma f_set_node_value g i v : S i -> foot g any (b_set_node_value i v).
  Proof. intros Hi. apply foot_borrow_mut; [done|]. intros n Hn. apply foot_write; [done|set_solver|]. intros. by apply nin_value. Qed.
  Lemma f_append_data g i v : S i -> foot g any (b_append_data i v).
  Proof. intros Hi. unfold b_append_data. destruct (is_nil v); [stop|]. apply foot_borrow_mut; [done|]. intros n Hn. apply foot_write; [done|set_solver|]. intros. by apply nin_value. Qed.
  Lemma f_replace_data g E i o c v : S i -> foot g any (b_replace_data E i o c v).
  Proof. intros Hi. apply foot_borrow_mut; [done|]. intros n Hn. fb; [apply foot_pure_any|]. intros x _. apply foot_write; [done|set_solver|]. intros. by apply nin_value. Qed.
  Lemma f_insert_data g E i o v : S i -> foot g any (b_insert_data E i o v).
  Proof. intros Hi. unfold b_insert_data. destruct (is_nil v); [stop|by apply f_replace_data]. Qed.
  Lemma f_delete_data g E i o c : S i -> foot g any (b_delete_data E i o c).
  Proof. intros Hi. fb; [apply foot_pure_any|]. intros e _. destruct (e =? o)%N; [stop|by apply f_replace_data]. Qed.
  Lemma f_is_child_allowed g p c : S p -> S c -> foot g any (b_is_child_allowed p c).
  Proof. intros Hp Hc. apply foot_borrow; [done|]. intros np _. apply foot_borrow; [done|]. intros nc _. stop. Qed.
  Lemma f_check g p c : S p -> S c -> foot g any (b_check_same_document p c).
  Proof.
    intros Hp Hc. fb; [by apply f_node_type|]. intros t _. destruct (type_eqb t NDocument).
    - apply foot_borrow; [done|]. intros nc Hnc. destruct (n_owner nc) as [d|] eqn:Hd; [|stop]. fb; [apply foot_upgrade; rewrite <- Hd; apply Hnc|]. intros d1 Hd1. fb; [by apply foot_unwrap|]. intros d2 _. destruct (bool_decide _); stop.
    - apply foot_borrow; [done|]. intros np Hnp. apply foot_borrow; [done|]. intros nc Hnc. pose proof (ni_owner _ Hnp) as Ho1. pose proof (ni_owner _ Hnc) as Ho2. destruct (n_owner np) as [a|], (n_owner nc) as [b|]; try stop.
      fb; [by apply foot_upgrade|]. intros a1 Ha1. fb; [by apply foot_unwrap|]. intros a2 _. fb; [by apply foot_upgrade|]. intros b1 Hb1. fb; [by apply foot_unwrap|]. intros b2 _. destruct (bool_decide _); stop.
  Qed.
  Lemma f_remove_child g p c : S p -> S c -> foot g S (b_remove_child p c).
  Proof.
    intros Hp Hc. unfold b_remove_child. apply (foot_bind g any); [apply foot_borrow; [done|]; intros; stop|]. intros [k|] _; [|stop].
    apply (foot_bind g any).
    - apply foot_borrow_mut; [done|]. intros n Hn. apply foot_write; [done|set_solver|]. intros m Hm. apply nin_set_children; [apply lS_delete, Hn|done].
    - intros _ _. apply foot_borrow_mut; [done|]. intros n Hn. fb; [apply foot_write; [done|set_solver|]; intros m Hm; apply nin_set_parent; [apply oS_none|done]|]. intros _ _. stop.
  Qed.
  Lemma f_insert_or_append g p c k : S p -> S c -> foot g any (b_insert_or_append p c k).
  Proof.
    intros Hp Hc. apply foot_borrow_mut; [done|]. intros n Hn. destruct k as [k|].
    - destruct (vec_insert k c (n_children n)) as [l|] eqn:Hv; [|stop]. apply foot_write; [done|set_solver|]. intros m Hm. apply nin_set_children; [|done]. eapply lS_vec; [done| |done]. apply Hn.
    - apply foot_write; [done|set_solver|]. intros m Hm. apply nin_set_children; [|done]. apply lS_app. split; [apply Hn|apply lS_cons; [done|apply lS_nil]].
  Qed.
  Lemma f_any_element g l : lS l -> foot g any (b_any_element l).
  Proof. induction l as [|c l IH]; intros Hl; cbn [b_any_element]; [stop|]. fb; [apply f_node_type, Hl; by left|]. intros t _. destruct (type_eqb t NElement); [stop|]. apply IH. intros j Hj. apply Hl. by right. Qed.
  Lemma f_insert_all g p l : S p -> lS l -> forall k n, foot g any (b_insert_all p l k n).
  Proof. intros Hp. induction l as [|c l IH]; intros Hl k n; cbn [b_insert_all]; [stop|]. fb; [apply f_insert_or_append; [done|apply Hl; by left]|]. intros _ _. apply IH. intros j Hj. apply Hl. by right. Qed.
  Lemma f_insert_before g p c r : S p -> S c -> foot g S (b_insert_before p c r).
  Proof.
    intros Hp Hc. unfold b_insert_before. fb; [by apply f_is_child_allowed|]. intros allowed _. destruct (negb allowed); [stop|].
    apply (foot_bind g any).
    { fb; [by apply f_is|]. intros d _. destruct (negb d); [stop|]. fb; [by apply f_is|]. intros e _. destruct (negb e); [stop|]. fb; [by apply f_child_nodes|]. intros l Hl. by apply f_any_element. }
    intros second _. destruct second; [stop|]. apply (foot_bind g any).
    { destruct r as [r|]; [|stop]. apply foot_borrow; [done|]. intros n Hn. destruct (position r (n_children n)); stop. }
    intros pos _. fb; [by apply f_check|]. intros _ _. fb; [by apply f_parent_node|]. intros parent Hpar. apply (foot_bind g any).
    { destruct parent as [q|]; [|stop]. fb; [apply f_remove_child; [by apply Hpar|done]|]. intros. stop. }
    intros _ _. apply (foot_bind g any).
    { apply foot_borrow; [done|]. intros ns Hns. apply foot_borrow_mut; [done|]. intros _ _. fb; [apply foot_write; [done|set_solver|]; intros m Hm; apply nin_set_parent; [by apply oS_some|done]|]. intros _ _.
      fb; [by apply f_is|]. intros [] _; (apply foot_write; [done|set_solver|]; intros m Hm; apply nin_set_owner; [|done]); [by apply oS_some|apply Hns]. }
    intros _ _. fb; [by apply f_is|]. intros f _. apply (foot_bind g any).
    { destruct f; [|by apply f_insert_or_append]. fb; [by apply f_child_nodes|]. intros l Hl. by apply f_insert_all. }
    intros _ _. stop.
  Qed.
  Lemma f_append_child g p c : S p -> S c -> foot g S (b_append_child p c). Proof. apply f_insert_before. Qed.
  Lemma f_replace_child g p c o : S p -> S c -> S o -> foot g S (b_replace_child p c o).
  Proof.
    intros Hp Hc Ho. fb; [by apply f_is_child_allowed|]. intros allowed _. destruct (negb allowed); [stop|]. apply (foot_bind g any); [apply foot_borrow; [done|]; intros; stop|].
    intros ex _. destruct ex; [|stop]. fb; [by apply f_next|]. intros next Hnext. fb; [by apply f_remove_child|]. intros removed Hr. fb; [by apply f_insert_before|]. intros. stop.
  Qed.
  Lemma f_clone_rec d : forall k i g, S i -> foot g S (b_clone_rec k d i).
  Proof.
    induction k as [|k IH]; intros i g Hi; [stop|].
    change (b_clone_rec (Datatypes.S k) d i) with (borrow i (fun n => b_bind (if d then b_map (b_clone_rec k d) (n_children n) else b_ret []) (fun c => b_free (allocM (mkNode (n_type n) (n_name n) (n_value n) None (n_owner n) c (n_ext n)))))).
    apply foot_borrow; [done|]. intros n Hn. apply (foot_bind _ lS).
    - destruct d; [|apply foot_ret, lS_nil]. apply (foot_map _ S); [intros x Hx; by apply IH|]. apply Hn.
    - intros c Hc. apply foot_alloc. split; cbn; [done|apply oS_none|apply Hn|apply Hn].
  Qed.
  Lemma f_clone g d i : S i -> foot g S (b_clone_node d i).
  Proof. intros Hi. apply (foot_at g S (fun h => b_clone_rec (walk_fuel h) d i)). intros h. by apply f_clone_rec. Qed.
  Lemma f_normalize_step g p c : S p -> S c -> foot g any (b_normalize_step p c).
  Proof.
    intros Hp Hc. fb; [by apply f_is|]. intros [] _; [|stop]. fb; [by apply f_length|]. intros len _. destruct (len =? 0)%N.
    - fb; [apply foot_err; by apply f_remove_child|]. intros. stop.
    - fb; [by apply f_previous|]. intros [q|] Hq; [|stop]. fb; [apply f_is; by apply Hq|]. intros [] _; [|stop]. fb; [by apply f_node_value|]. intros v _. fb; [apply foot_pure_any|]. intros v' _.
      fb; [apply foot_err, f_append_data; by apply Hq|]. intros _ _. fb; [apply foot_err; by apply f_remove_child|]. intros. stop.
  Qed.
  Lemma f_normalize g p : S p -> foot g any (b_normalize p).
  Proof. intros Hp. fb; [by apply f_child_nodes|]. intros l Hl. apply (foot_iter g S); [|done]. intros x Hx. by apply f_normalize_step. Qed.
  Lemma f_split g E i o : S i -> foot g S (b_split E i o).
  Proof.
    intros Hi. unfold b_split. apply (foot_bind g any); [apply foot_borrow; [done|]; intros; stop|]. intros c _. destruct (negb c); [stop|]. fb; [by apply f_length|]. intros len _.
    apply (foot_bind g any). { destruct (len <=? o)%N; [stop|]. fb; [by apply f_substring|]. intros s _. fb; [by apply f_delete_data|]. intros. stop. }
    intros nd _. apply (foot_bind g nin).
    { apply foot_borrow_mut; [done|]. intros n Hn. destruct (n_type n); try stop; (fb; [apply foot_unwrap, Hn|]; intros d Hd; apply foot_ret; by apply nin_plain). }
    intros nn Hnn. fb; [by apply foot_alloc|]. intros new Hnew. fb; [by apply f_parent_node|]. intros [p|] Hp; [|stop].
    fb; [by apply f_next|]. intros next _. fb; [apply f_insert_before; [by apply Hp|done]|]. intros. stop.
  Qed.
  Lemma f_doc_type g i : S i -> foot g oS (b_doc_type i).
  Proof.
    intros Hi. apply foot_borrow; [done|]. intros n Hn. apply foot_ret. pose proof (ni_ext _ Hn) as H. destruct (n_ext n); try apply oS_none. cbn [ext_links] in H. apply lS_app in H as [H _]. by apply oS_in.
  Qed.
  Lemma f_resolve g i e : S i -> foot g any (b_resolve i e).
  Proof.
    intros Hi. unfold b_resolve. fb; [by apply f_node_type|]. intros t _. apply (foot_bind g oS).
    { assert (Hod : foot g oS (dob? o := b_owner_document i in match o with None => b_ret None | Some d => dob? _ := b_as_unwrap NDocument d in b_doc_type d end)).
      { fb; [by apply f_owner_document|]. intros [d|] Hd; [|apply foot_ret, oS_none]. fb; [apply f_as_unwrap; by apply Hd|]. intros _ _. apply f_doc_type. by apply Hd. }
      destruct t; try exact Hod; [fb; [by apply f_as_unwrap|]; intros _ _; by apply f_doc_type|by apply foot_ret, oS_some]. }
    intros [d|] Hd; [|stop]. specialize (Hd d eq_refl). fb; [by apply f_as_unwrap|]. intros _ _. fb; [apply foot_pure_any|]. intros nm _.
    apply (foot_bind g (fun m : list (Name * id) => lS (map snd m))).
    { apply foot_borrow; [done|]. intros n Hn. apply foot_ret. pose proof (ni_ext _ Hn) as H. destruct (n_ext n); try apply lS_nil. cbn [ext_links] in H. by apply lS_app in H as [H _]. }
    intros m Hm. pose proof (lS_get nm m Hm) as Hg. destruct (hm_get nm m) as [x|]; [|stop]. apply f_node_value. by apply Hg.
  Qed.
  Lemma f_attr_text g l : lS l -> foot g any (b_attr_text l).
  Proof.
    induction l as [|c l IH]; intros Hl; cbn [b_attr_text]; [stop|]. assert (Hc : S c) by (apply Hl; by left). fb; [by apply f_node_type|]. intros t _. apply (foot_bind g any).
    { destruct (type_eqb t NEntityReference); [by apply f_node_value|]. fb; [by apply f_node_type|]. intros y _. destruct (type_eqb y NText); [|stop]. apply foot_borrow; [done|]. intros. stop. }
    intros v _. fb; [apply IH; intros j Hj; apply Hl; by right|]. intros. stop.
  Qed.
  Lemma f_attr_value g E i : S i -> foot g any (b_attr_value E i).
  Proof.
    intros Hi. unfold b_attr_value. fb; [by apply f_has_child_nodes|]. intros [] _; [|stop]. fb; [by apply f_child_nodes|]. intros l Hl. fb; [by apply f_attr_text|]. intros raw _.
    apply (foot_bind g any); [|intros; stop]. intros h Hp. split; [|done]. unfold lift. rewrite (normalize_ext E (fun e => (b_resolve i e (g ++ G) h).2) (fun e => (b_resolve i e g h).2)); [done|]. intros e. by destruct (f_resolve g i e Hi h Hp) as (-> & _).
  Qed.
  Lemma f_attr_unset g i : S i -> foot g any (b_attr_unset_value i).
  Proof. intros Hi. apply foot_borrow_mut; [done|]. intros n Hn. apply foot_write; [done|set_solver|]. intros. apply nin_set_children; [apply lS_nil|done]. Qed.
  Lemma f_attr_set g i v : S i -> foot g any (b_attr_set_value i v).
  Proof.
    intros Hi. fb; [by apply f_attr_unset|]. intros _ _. fb; [by apply f_owner_document|]. intros o Ho. fb; [by apply foot_unwrap|]. intros d Hd. fb; [by apply f_as_unwrap|]. intros _ _.
    fb; [by apply foot_create_text|]. intros t Ht. fb; [by apply f_append_child|]. intros. stop.
  Qed.
  Lemma f_add_namespaces g i : S i -> foot g any (b_add_namespaces i).
  Proof. intros Hi. fb; [by apply f_owner_document|]. intros [d|] Hd; [|stop]. apply foot_borrow; [by apply Hd|]. intros. stop. Qed.
  Lemma f_insert_mapping g i p u : S i -> foot g any (b_insert_mapping i p u).
  Proof.
    intros Hi. fb; [by apply f_add_namespaces|]. intros b _. destruct (negb b); [stop|]. apply foot_borrow_mut; [done|]. intros n Hn. destruct (is_type NElement n); [|stop]. pose proof (ni_ext _ Hn) as H. destruct (n_ext n); try stop.
    apply foot_write; [done|set_solver|]. intros. by apply nin_set_ext.
  Qed.
  Lemma oS_find (E : env) (p : Name * id -> bool) m : wf_env E -> lS (map snd m) -> oS (option_map snd (find_first p (e_ord_attr E m))).
  Proof.
    intros HE Hm j Hj. destruct (find_first p (e_ord_attr E m)) as [x|] eqn:Hf; [|done]. injection Hj as <-. apply find_first_in in Hf. apply Hm, in_map. eapply Permutation_in; [apply (wf_ord_attr E HE)|done].
  Qed.
  Lemma f_get_attribute_node g E i nm : wf_env E -> S i -> foot g oS (b_get_attribute_node E i nm).
  Proof.
    intros HE Hi. fb; [by apply f_is|]. intros [] _; [|apply foot_ret, oS_none]. destruct (name_from_str nm); try stop. apply foot_borrow; [done|]. intros n Hn. apply foot_ret.
    pose proof (ni_ext _ Hn) as H. destruct (n_ext n); try apply oS_none. by apply oS_find.
  Qed.
  Lemma f_get_attribute_node_ns g E i u nm : wf_env E -> S i -> foot g oS (b_get_attribute_node_ns E i u nm).
  Proof.
    intros HE Hi. fb; [by apply f_is|]. intros [] _; [|apply foot_ret, oS_none]. destruct (name_new_ns u nm); try stop. apply foot_borrow; [done|]. intros n Hn. apply foot_ret.
    pose proof (ni_ext _ Hn) as H. destruct (n_ext n); try apply oS_none. by apply oS_find.
  Qed.
  Lemma f_set_attribute_node g E e a : S e -> S a -> foot g S (b_set_attribute_node E e a).
  Proof.
    intros He Ha. unfold b_set_attribute_node. apply (foot_bind g any). { fb; [by apply f_is|]. intros [] _; [by apply f_is|stop]. }
    intros both _. destruct (negb both); [stop|]. fb; [by apply f_check|]. intros _ _. apply (foot_bind g any).
    { apply foot_borrow_mut; [done|]. intros n Hn. destruct (n_ext n); try stop. apply foot_write; [done|set_solver|]. intros m Hm. apply nin_set_ext; [|done]. cbn. apply lS_cons; [done|apply lS_nil]. }
    intros _ _. fb; [by apply f_node_name|]. intros nm _. apply (foot_bind g any).
    { destruct (is_namespace_attribute nm); [|stop]. fb; [by apply f_as_unwrap|]. intros _ _. fb; [by apply f_attr_value|]. intros v _. fb; [apply foot_pure_any|]. intros v' _. fb; [by apply f_as_unwrap|]. intros _ _. by apply f_insert_mapping. }
    intros _ _. apply foot_borrow_mut; [done|]. intros ns Hns. pose proof (ni_ext _ Hns) as Hx. destruct (n_ext ns) as [| | | |attrs nss| |]; try stop.
    fb; [by apply f_node_name|]. intros key _. fb; [apply foot_write; [done|set_solver|]; intros m Hm; apply nin_set_ext; [|done]; cbn; by apply lS_insert|]. intros _ _.
    fb; [by apply f_as_unwrap|]. intros _ _. fb; [by apply f_owner_document|]. intros o Ho. fb; [by apply foot_unwrap|]. intros d Hd. apply foot_borrow_mut; [done|]. intros nd Hnd. cbv zeta.
    destruct (is_id_attribute nm _); [|stop]. pose proof (ni_ext _ Hnd) as Hy. destruct (n_ext nd) as [| |decl dt m op| | | |]; try stop.
    fb; [by apply f_attr_value|]. intros v _. fb; [apply foot_pure_any|]. intros v' _. destruct (hm_get v' m); [stop|]. fb; [|intros; stop].
    apply foot_write; [done|set_solver|]. intros n' Hn'. apply nin_set_ext; [|done]. cbn [ext_links] in *. apply lS_app in Hy as [Hy1 Hy2]. apply lS_app. split; [done|]. by apply lS_insert.
  Qed.
  Lemma f_set_new g E e nm v : S e -> foot g any (b_set_new_attribute E e nm v).
  Proof.
    intros He. unfold b_set_new_attribute. apply (foot_bind g nin). { apply foot_borrow_mut; [done|]. intros n Hn. fb; [apply foot_unwrap, Hn|]. intros d Hd. by apply foot_new_attribute. }
    intros n Hn. fb; [by apply foot_alloc|]. intros a Ha. fb; [by apply f_set_attribute_node|]. intros. stop.
  Qed.
  Lemma f_remove_attribute_node g e a : S e -> S a -> foot g S (b_remove_attribute_node e a).
  Proof.
    intros He Ha. fb; [by apply f_is|]. intros [] _; [|stop]. apply foot_borrow_mut; [done|]. intros ns Hns. pose proof (ni_ext _ Hns) as Hx. destruct (n_ext ns) as [| | | |attrs nss| |]; try stop.
    fb; [by apply f_node_name|]. intros nm _. fb; [apply foot_write; [done|set_solver|]; intros m Hm; apply nin_set_ext; [|done]; cbn; by apply lS_remove|]. intros _ _.
    apply foot_borrow_mut; [done|]. intros na Hna. fb; [apply foot_write; [done|set_solver|]; intros m Hm; apply nin_set_parent; [apply oS_none|done]|]. intros. stop.
  Qed.
  Lemma f_create_document g u q t o : oS t -> foot g S (b_create_document_with_options u q t o).
  Proof.
    intros Ht. unfold b_create_document_with_options. apply (foot_bind g any).
    { apply foot_free. intros h Hp. destruct t as [t|]; [|done]. unfold with_handle, bind. rewrite getM_eq. unfold get_node. by destruct (h_nodes h !! t). }
    intros _ _. fb; [apply foot_alloc; split; cbn; [apply lS_nil|apply oS_none|apply oS_none|rewrite app_nil_r; by apply oS_in]|]. intros d Hd. fb; [by apply f_is|]. intros b _. destruct (negb b); [stop|].
    apply (foot_bind g oS).
    { destruct u as [u|], q as [q|]; [| |..].
      - fb; [by apply foot_create_element_ns|]. intros e He. by apply foot_ret, oS_some.
      - stop.
      - fb; [by apply foot_create_element|]. intros e He. by apply foot_ret, oS_some.
      - apply foot_ret, oS_none. }
    intros e He. apply (foot_bind g any); [|intros; stop]. destruct e as [e|]; [|stop]. fb; [by apply f_is|]. intros b2 _. destruct (negb b2); [stop|]. fb; [apply f_append_child; [done|by apply He]|]. intros. stop.
  Qed.
  Lemma f_set_decl g i x : S i -> foot g any (b_set_xml_declaration i x).
  Proof. intros Hi. apply foot_borrow_mut; [done|]. intros n Hn. pose proof (ni_ext _ Hn) as Hx. destruct (n_ext n); try stop. apply foot_write; [done|set_solver|]. intros. by apply nin_set_ext. Qed.
  Lemma f_out {A} g (Q : A -> Prop) (f : A -> option id) m : foot g Q m -> foot g any (b_out f m).
  Proof. intros Hm. fb; [exact Hm|]. intros. stop. Qed.
  Lemma f_exec E o h : wf_env E -> part S h -> (forall i, In i (given o) -> S i) -> b_exec E o G h = b_exec E o [] h.
  Proof.
    intros HE Hp Hg. assert (H : forall m : B (option id), foot [] any m -> m G h = m [] h) by (intros m Hm; apply (Hm h Hp)).
    destruct o; cbn [b_exec]; try done; apply H; eapply f_out.
    - apply f_create_document. destruct dt as [t|]; [apply oS_some, Hg; by left|apply oS_none].
    - apply f_insert_before; apply Hg; destruct r as [r|]; cbn; auto.
    - apply f_append_child; apply Hg; cbn; auto.
    - apply f_replace_child; apply Hg; cbn; auto.
    - apply f_remove_child; apply Hg; cbn; auto.
    - apply f_clone; apply Hg; cbn; auto.
    - apply f_normalize; apply Hg; cbn; auto.
    - apply f_set_node_value; apply Hg; cbn; auto.
    - apply f_set_node_value; apply Hg; cbn; auto.
    - apply f_append_data; apply Hg; cbn; auto.
    - apply f_insert_data; apply Hg; cbn; auto.
    - apply f_delete_data; apply Hg; cbn; auto.
    - apply f_replace_data; apply Hg; cbn; auto.
    - apply f_split; apply Hg; cbn; auto.
    - apply f_attr_set; apply Hg; cbn; auto.
    - apply f_attr_unset; apply Hg; cbn; auto.
    - fb; [apply foot_pure_any|]. intros. apply f_set_new; apply Hg; cbn; auto.
    - fb; [apply foot_pure_any|]. intros. apply f_set_new; apply Hg; cbn; auto.
    - apply f_set_attribute_node; apply Hg; cbn; auto.
    - assert (He : S e) by (apply Hg; cbn; auto). fb; [by apply f_get_attribute_node|]. intros [a|] Ha; [|by apply (foot_ret _ any)]. fb; [apply f_remove_attribute_node; [done|by apply Ha]|]. intros. by apply (foot_ret _ any).
    - assert (He : S e) by (apply Hg; cbn; auto). fb; [by apply f_get_attribute_node_ns|]. intros [a|] Ha; [|by apply (foot_ret _ any)]. fb; [apply f_remove_attribute_node; [done|by apply Ha]|]. intros. by apply (foot_ret _ any).
    - apply f_remove_attribute_node; apply Hg; cbn; auto.
    - apply f_set_decl; apply Hg; cbn; auto.
  Qed.

  (** ** Queries *)
  Lemma f_get {A} g (f : node -> A) (Q : A -> Prop) i : S i -> (forall n, nin n -> Q (f n)) -> foot g Q (b_get f i).
  Proof. intros Hi Hf. apply foot_borrow; [done|]. intros n Hn. by apply foot_ret, Hf. Qed.
  Lemma f_any {A} g (f : node -> A) i : S i -> foot g any (b_get f i). Proof. intros Hi. by apply f_get. Qed.
  Lemma f_handle g i : foot g any (b_handle i).
  Proof. apply foot_free. intros h Hp. unfold with_handle, bind. rewrite getM_eq. unfold get_node. by destruct (h_nodes h !! i). Qed.
  Lemma f_as_f g t i : S i -> foot g any (b_as_f t i). Proof. intros Hi. fb; [by apply f_any|]. intros [] _; stop. Qed.
  Lemma f_as_char g i : S i -> foot g any (b_as_char_data i). Proof. intros Hi. apply foot_borrow; [done|]. intros n _. destruct (n_type n); stop. Qed.
  Lemma f_attributes g i : S i -> foot g (fun a => lS (map snd a)) (b_attributes i).
  Proof. intros Hi. fb; [by apply f_is|]. intros [] _; [|apply foot_ret, lS_nil]. apply f_get; [done|]. intros n Hn. pose proof (ni_ext _ Hn) as H. destruct (n_ext n); try apply lS_nil. done. Qed.
  Lemma f_owner_element g i : S i -> foot g oS (b_owner_element i).
  Proof. intros Hi. apply foot_borrow; [done|]. intros n Hn. pose proof (ni_ext _ Hn) as H. destruct (n_ext n); try apply foot_ret, oS_none. apply foot_upgrade. by apply oS_in. Qed.
  Lemma f_document_element g i : S i -> foot g oS (b_document_element i).
  Proof. intros Hi. fb; [by apply f_child_nodes|]. intros l Hl. by apply foot_ret, lS_head. Qed.
  Lemma f_by_id g i k : S i -> foot g oS (b_get_element_by_id i k).
  Proof. intros Hi. apply foot_borrow; [done|]. intros n Hn. pose proof (ni_ext _ Hn) as H. destruct (n_ext n); try apply foot_ret, oS_none. apply foot_upgrade, lS_get. by apply lS_app in H as [_ H]. Qed.
  Lemma f_implementation g i : S i -> foot g any (b_implementation i).
  Proof. intros Hi. apply foot_borrow; [done|]. intros n Hn. destruct (n_ext n); stop. Qed.
  Lemma f_search p : forall k i g, S i -> foot g any (b_search k p i).
  Proof.
    induction k as [|k IH]; intros i g Hi; [stop|]. cbn [b_search]. fb; [by apply f_is|]. intros [] _; [|stop]. apply foot_borrow; [done|]. intros n Hn.
    fb; [apply (foot_map _ S any); [|apply Hn]|intros; stop]. intros c Hc. fb; [by apply f_is|]. intros [] _; [by apply IH|stop].
  Qed.
  Lemma f_by_tag g i t : S i -> foot g any (b_by_tag i t).
  Proof. intros Hi. apply (foot_at g any (fun h => b_search (walk_fuel h) _ i)). intros h. by apply f_search. Qed.
  Lemma f_by_tag_ns g i u l : S i -> foot g any (b_by_tag_ns i u l).
  Proof. intros Hi. apply (foot_at g any (fun h => b_search (walk_fuel h) _ i)). intros h. by apply f_search. Qed.
  Lemma f_on_root g f i : (forall e, S e -> foot g any (f e)) -> S i -> foot g any (b_on_root f i).
  Proof. intros Hf Hi. fb; [by apply f_document_element|]. intros [e|] He; [apply Hf; by apply He|stop]. Qed.
  Lemma f_value_of g E o : oS o -> foot g any (b_value_of E o).
  Proof. intros Ho. destruct o as [a|]; [|stop]. assert (Ha : S a) by (by apply Ho). fb; [by apply f_is|]. intros [] _; [by apply f_attr_value|stop]. Qed.
  Lemma f_has_in g i r same : S i -> foot g any (b_has_attribute_in i r same).
  Proof. intros Hi. fb; [by apply f_is|]. intros [] _; [|stop]. destruct r; [by apply f_any|stop..]. Qed.
  Lemma f_contains_mapping g i p : S i -> foot g any (b_contains_mapping i p).
  Proof. intros Hi. fb; [by apply f_add_namespaces|]. intros b _. destruct (negb b); [stop|by apply f_any]. Qed.
  Lemma f_get_namespace g i p : S i -> foot g any (b_get_namespace i p).
  Proof. intros Hi. fb; [by apply f_add_namespaces|]. intros b _. destruct (negb b); [stop|by apply f_any]. Qed.
  Lemma f_get_prefix g E i u : S i -> foot g any (b_get_prefix E i u).
  Proof. intros Hi. fb; [by apply f_add_namespaces|]. intros b _. destruct (negb b); [stop|by apply f_any]. Qed.
  Lemma f_resolve_ns_rec p : forall k i g, S i -> foot g any (b_resolve_namespace_rec k i p).
  Proof.
    induction k as [|k IH]; intros i g Hi; [stop|]. cbn [b_resolve_namespace_rec]. fb; [by apply f_add_namespaces|]. intros b _. destruct (negb b); [stop|]. fb; [by apply f_get_namespace|]. intros [u|] _; [stop|].
    apply foot_borrow; [done|]. intros n Hn. pose proof (ni_parent _ Hn) as Hq. destruct (n_parent n) as [q|]; [|stop]. fb; [by apply foot_upgrade|]. intros q1 Hq1. fb; [by apply foot_unwrap|]. intros q2 Hq2. by apply IH.
  Qed.
  Lemma f_resolve_prefix_rec E u : forall k i g, S i -> foot g any (b_resolve_prefix_rec k E i u).
  Proof.
    induction k as [|k IH]; intros i g Hi; [stop|]. cbn [b_resolve_prefix_rec]. fb; [by apply f_add_namespaces|]. intros b _. destruct (negb b); [stop|]. fb; [by apply f_get_prefix|]. intros [] _; try stop.
    apply foot_borrow; [done|]. intros n Hn. pose proof (ni_parent _ Hn) as Hq. destruct (n_parent n) as [q|]; [|stop]. fb; [by apply foot_upgrade|]. intros q1 Hq1. fb; [by apply foot_unwrap|]. intros q2 Hq2. by apply IH.
  Qed.
  Lemma f_fmt_list {A} g (f : A -> B str) l : (forall x, In x l -> foot g any (f x)) -> foot g any (b_fmt_list f l).
  Proof. intros Hf. fb; [apply (foot_map _ (fun x => In x l) any); [|done]; done|]. intros. stop. Qed.
  Lemma f_fmt_data g f i : S i -> foot g any (b_fmt_data f i).
  Proof. intros Hi. fb; [apply foot_err; by apply f_as_char|]. intros _ _. fb; [by apply f_data|]. intros. stop. Qed.
  Lemma lS_ord E (m : list (Name * id)) : wf_env E -> lS (map snd m) -> forall x, In x (e_ord_attr E m) -> S x.2.
  Proof. intros HE Hm x Hx. apply Hm, in_map. eapply Permutation_in; [apply (wf_ord_attr E HE)|done]. Qed.
  Lemma f_xml_declaration g i : S i -> foot g any (b_xml_declaration i). Proof. intros Hi. apply foot_borrow; [done|]. intros. stop. Qed.
  Lemma f_dt_fields g i : S i -> foot g (fun x : list (Name * id) * list (Name * id) * option str * option str * option str => lS (map snd x.1.1.1.1) /\ lS (map snd x.1.1.1.2)) (b_dt_fields i).
  Proof. intros Hi. apply f_get; [done|]. intros n Hn. pose proof (ni_ext _ Hn) as H. destruct (n_ext n); try (split; apply lS_nil). by apply lS_app in H. Qed.
  #[local] Opaque b_fmt_list.
  Lemma f_fmt_node E : wf_env E -> forall k i g, S i -> foot g any (b_fmt_node k E i).
  Proof.
    intros HE. induction k as [|k IH]; intros i g Hi; [stop|]. cbn [b_fmt_node]. fb; [by apply f_node_type|]. intros t _.
    destruct t; try (by apply f_fmt_data); (fb; [by apply f_as_unwrap|]; intros _ _).
    - fb; [by apply f_node_name|]. intros nm _. fb; [by apply f_attributes|]. intros a Ha. fb; [apply f_fmt_list; intros x Hx; fb; [apply IH; exact (lS_ord E a HE Ha x Hx)|]; intros; stop|]. intros s _.
      fb; [by apply f_child_nodes|]. intros l Hl. fb; [apply f_fmt_list; intros x Hx; by apply IH, Hl|]. intros c _. fb; [by apply f_node_name|]. intros. stop.
    - fb; [by apply f_node_name|]. intros nm _. fb; [by apply f_attr_value|]. intros. stop.
    - fb; [by apply f_node_name|]. intros nm _. stop.
    - by apply f_any.
    - fb; [by apply f_node_value|]. intros nm _. fb; [by apply f_node_name|]. intros. stop.
    - fb; [by apply f_xml_declaration|]. intros decl _. fb; [by apply f_doc_type|]. intros dt Hdt. apply (foot_bind g any); [destruct dt as [t|]; [apply IH; by apply Hdt|stop]|]. intros s _.
      fb; [by apply f_child_nodes|]. intros l Hl. fb; [apply f_fmt_list; intros x Hx; by apply IH, Hl|]. intros. stop.
    - fb; [by apply f_node_name|]. intros nm _. fb; [by apply f_dt_fields|]. intros [[[[ents nots] pub] sys] sub] [H1 H2]. cbn in H1, H2. fb; [apply f_fmt_list; intros x Hx; apply IH; exact (lS_ord E ents HE H1 x Hx)|]. intros es _.
      fb; [apply f_fmt_list; intros x Hx; apply IH; exact (lS_ord E nots HE H2 x Hx)|]. intros. stop.
    - fb; [by apply f_node_name|]. intros nm _. fb; [by apply f_child_nodes|]. intros l Hl. fb; [apply f_fmt_list; intros x Hx; by apply IH, Hl|]. intros. stop.
    - by apply f_any.
  Qed.
  Lemma f_ans {A} g (Q : A -> Prop) (f : A -> answer) m : foot g Q m -> foot g any (b_ans f m).
  Proof. intros Hm. fb; [exact Hm|]. intros. stop. Qed.
  Lemma f_name_part {A} g (f : Name -> A) i : S i -> foot g any (b_name_part f i).
  Proof. intros Hi. fb; [by apply f_node_name|]. intros. stop. Qed.
  Lemma f_ask E q h : wf_env E -> part S h -> S (asked q) -> b_ask E q G h = b_ask E q [] h.
  Proof.
    intros HE Hp Hq. assert (H : forall m : B answer, foot [] any m -> m G h = m [] h) by (intros m Hm; apply (Hm h Hp)).
    apply H. clear H. destruct q; cbn [b_ask asked] in *; eapply f_ans; try first
      [ by apply f_any | by apply f_name_part | by apply f_node_name | by apply f_node_value | by apply f_node_type | by apply f_parent_node | by apply f_child_nodes | by apply f_previous | by apply f_next
      | by apply f_attributes | by apply f_owner_document | by apply f_has_child_nodes | by apply f_owner_element | by apply f_attr_value | by apply f_length | by apply f_data | by apply f_substring | by apply f_doc_type
      | by apply f_document_element | by apply f_implementation | by apply f_by_id | by apply f_xml_declaration | by apply f_get_attribute_node | by apply f_get_attribute_node_ns | by apply f_has_in
      | by apply f_by_tag | by apply f_by_tag_ns | by apply f_contains_mapping | by apply f_get_namespace | by apply f_get_prefix ].
    - destruct T; by apply f_any.
    - destruct T; first [by apply f_as_f | by apply f_as_char].
    - fb; [apply f_handle|]. intros. by apply (foot_ret _ any).
    - fb; [by apply f_attributes|]. intros. by apply (foot_ret _ any).
    - apply (foot_at [] any (fun h => b_fmt_node (Datatypes.S (walk_fuel h)) E _)). intros h'. by apply f_fmt_node.
    - fb; [apply f_handle|]. intros. by apply (foot_ret _ any).
    - apply f_on_root; [|done]. intros. by apply f_by_tag.
    - apply f_on_root; [|done]. intros. by apply f_by_tag_ns.
    - fb; [by apply f_get_attribute_node|]. intros. by apply f_value_of.
    - fb; [by apply f_get_attribute_node_ns|]. intros. by apply f_value_of.
    - fb; [by apply f_node_value|]. intros. by apply (foot_ret _ any).
    - apply (foot_at [] any (fun h => b_resolve_namespace_rec (walk_fuel h) _ _)). intros h'. by apply f_resolve_ns_rec.
    - fb; [by apply f_get_prefix|]. intros. by apply (foot_ret _ any).
    - apply (foot_at [] any (fun h => b_resolve_prefix_rec (walk_fuel h) E _ _)). intros h'. by apply f_resolve_prefix_rec.
  Qed.
End part.
