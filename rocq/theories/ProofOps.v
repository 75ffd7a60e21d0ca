(** * ProofOps: every call is a sequence of primitive steps; hence the invariant holds in every
    reachable state *)
From Coq Require Import Lia.
From Verif Require Import History SpecName ProofText ProofName ProofInv ProofSteps.

(** ** Association lists *)
Section assoc.
  Context {K V : Type} `{EqDecision K}.
  Implicit Type m : list (K * V).
  Lemma hm_insert_in k v m k' v' : In (k', v') (hm_insert k v m) -> k' = k /\ v' = v \/ In (k', v') m.
  Proof.
    induction m as [|[k0 v0] m IH]; cbn; [intros [[= -> ->]|[]]; auto|].
    destruct (decide (k0 = k)) as [->|Hk].
    - rewrite bool_decide_true by done. intros [[= -> ->]|]; auto.
    - rewrite bool_decide_false by done. intros [[= -> ->]|H]; [auto|]. destruct (IH H); auto.
  Qed.
  Lemma hm_insert_keys k v m k' : In k' (map fst (hm_insert k v m)) <-> k' = k \/ In k' (map fst m).
  Proof.
    induction m as [|[k0 v0] m IH]; cbn; [intuition|].
    destruct (decide (k0 = k)) as [->|Hk].
    - rewrite bool_decide_true by done. cbn. intuition.
    - rewrite bool_decide_false by done. cbn. rewrite IH. intuition.
  Qed.
  Lemma hm_insert_nodup k v m : List.NoDup (map fst m) -> List.NoDup (map fst (hm_insert k v m)).
  Proof.
    induction m as [|[k0 v0] m IH]; cbn; [intros _; constructor; [intros []|constructor]|].
    intros Hnd. inversion Hnd as [|? ? Hni Hnd']; subst. destruct (decide (k0 = k)) as [->|Hk].
    - rewrite bool_decide_true by done. cbn. by constructor.
    - rewrite bool_decide_false by done. cbn. constructor; [|by apply IH]. rewrite hm_insert_keys. intros [?|?]; done.
  Qed.
  Lemma hm_remove_in k m k' v' : In (k', v') (hm_remove k m) -> In (k', v') m.
  Proof.
    induction m as [|[k0 v0] m IH]; cbn; [done|]. case_bool_decide; [auto|]. intros [?|?]; auto.
  Qed.
  Lemma hm_remove_keys k m k' : In k' (map fst (hm_remove k m)) -> In k' (map fst m).
  Proof.
    induction m as [|[k0 v0] m IH]; cbn; [done|]. case_bool_decide; [auto|]. cbn. intros [?|?]; auto.
  Qed.
  Lemma hm_remove_nodup k m : List.NoDup (map fst m) -> List.NoDup (map fst (hm_remove k m)).
  Proof.
    induction m as [|[k0 v0] m IH]; cbn; [done|]. intros Hnd. inversion Hnd as [|? ? Hni Hnd']; subst.
    case_bool_decide; [done|]. cbn. constructor; [|by apply IH]. intros Hin. by apply hm_remove_keys in Hin.
  Qed.
  Lemma hm_get_in k m v : hm_get k m = Some v -> In (k, v) m.
  Proof.
    induction m as [|[k0 v0] m IH]; cbn; [done|]. case_bool_decide; [intros [= ->]; left; congruence|]. auto.
  Qed.
  Lemma hm_get_insert k v m : hm_get k (hm_insert k v m) = Some v.
  Proof.
    induction m as [|[k0 v0] m IH]; cbn; [by rewrite bool_decide_true|]. destruct (decide (k0 = k)) as [->|Hk].
    - rewrite bool_decide_true by done. cbn. by rewrite bool_decide_true.
    - rewrite bool_decide_false by done. cbn. by rewrite bool_decide_false.
  Qed.
  Lemma hm_get_insert_ne k k' v m : k <> k' -> hm_get k' (hm_insert k v m) = hm_get k' m.
  Proof.
    intros Hne. induction m as [|[k0 v0] m IH]; cbn; [by rewrite bool_decide_false|]. destruct (decide (k0 = k)) as [->|Hk].
    - rewrite bool_decide_true by done. cbn. by rewrite bool_decide_false.
    - rewrite bool_decide_false by done. cbn. destruct (decide (k0 = k')) as [->|Hk'].
      + by rewrite bool_decide_true.
      + by rewrite bool_decide_false.
  Qed.
  Lemma hm_get_none k m : hm_get k m = None <-> ~ In k (map fst m).
  Proof.
    induction m as [|[k0 v0] m IH]; cbn; [tauto|]. destruct (decide (k0 = k)) as [->|Hk].
    - rewrite bool_decide_true by done. split; [done|]. tauto.
    - rewrite bool_decide_false by done. rewrite IH. tauto.
  Qed.
End assoc.

(** ** A small program logic *)
Definition triple {A} (L : lab -> Prop) (h : heap) (m : M A) (Q : A -> heap -> Prop) : Prop :=
  Inv h -> forall h' r, m h = (h', r) -> returned r -> isteps L h h' /\ forall a, r = Ok a -> Q a h'.

Lemma triple_bind {A B} L h (m : M A) (k : A -> M B) Q R :
  triple L h m R -> (forall a h1, isteps L h h1 -> R a h1 -> triple L h1 (k a) Q) -> triple L h (bind m k) Q.
Proof.
  intros Hm Hk HI h' r H Hr. apply bind_inv in H as [(h1 & a & H1 & H2)|(e & H1 & ->)]; [..|done].
  - destruct (Hm HI _ _ H1 I) as [Hs HR]. specialize (HR a eq_refl).
    destruct (Hk a h1 Hs HR (isteps_inv _ _ _ Hs HI) _ _ H2 Hr) as [Hs2 HQ]. split; [by eapply isteps_app|done].
  - destruct (Hm HI _ _ H1 I) as [Hs _]. split; [done|]. intros a [=].
Qed.
Lemma triple_assoc {A B C} L h (m : M A) (k : A -> M B) (g : B -> M C) Q :
  triple L h (bind (bind m k) g) Q -> triple L h (bind m (fun a => bind (k a) g)) Q.
Proof. intros H HI h' r H' Hr. rewrite <- bind_assoc in H'. by apply H. Qed.
Lemma triple_ret {A} L h (a : A) (Q : A -> heap -> Prop) : Q a h -> triple L h (ret a) Q.
Proof. intros HQ _ h' r [= <- <-] _. split; [apply isteps_nil|]. by intros ? [= <-]. Qed.
Lemma triple_fail {A} L h e (Q : A -> heap -> Prop) : triple L h (fail e) Q.
Proof. intros _ h' r [= <- <-] _. split; [apply isteps_nil|]. done. Qed.
Lemma triple_panic {A} L h p (Q : A -> heap -> Prop) : triple L h (panic_ p) Q.
Proof. intros _ h' r [= <- <-] []. Qed.
Lemma triple_lift {A} L h (f : heap -> res A) (Q : A -> heap -> Prop) : (forall a, f h = Ok a -> Q a h) -> triple L h (lift f) Q.
Proof. intros HQ _ h' r [= <- <-] _. split; [apply isteps_nil|]. intros a Ha. auto. Qed.
Lemma triple_getM L h i (Q : node -> heap -> Prop) : (forall n, h_nodes h !! i = Some n -> Q n h) -> triple L h (getM i) Q.
Proof. intros HQ. apply triple_lift. intros n Hn%get_node_ok. auto. Qed.
Lemma triple_weaken {A} L h (m : M A) (Q R : A -> heap -> Prop) :
  triple L h m Q -> (forall a h', isteps L h h' -> Inv h' -> Q a h' -> R a h') -> triple L h m R.
Proof.
  intros Hm HQ HI h' r H Hr. destruct (Hm HI _ _ H Hr) as [Hs HR]. split; [done|]. intros a Ha.
  apply HQ; [done|by eapply isteps_inv|auto].
Qed.
Lemma triple_labels {A} (L L' : lab -> Prop) h (m : M A) Q : (forall l, L l -> L' l) -> triple L h m Q -> triple L' h m Q.
Proof. intros HL Hm HI h' r H Hr. destruct (Hm HI _ _ H Hr) as [Hs HR]. split; [by eapply isteps_weaken|done]. Qed.
Lemma triple_alloc (L : lab -> Prop) h n (Q : id -> heap -> Prop) :
  L (LAlloc n) -> (Inv h -> node_ok (info h) (h_next h) (h_next h) n) -> n_parent n = None ->
  Q (h_next h) (allocd n h) -> triple L h (allocM n) Q.
Proof.
  intros HL Hok Hp HQ HI h' r [= <- <-] _. split; [|by intros ? [= <-]].
  eapply isteps_one; [done|]. apply pr_alloc; auto.
Qed.
Lemma triple_value (L : lab -> Prop) h i f (Q : unit -> heap -> Prop) :
  L (LValue i) -> (forall n, exists v, f n = set_value v n) ->
  (forall n, h_nodes h !! i = Some n -> Q tt (upd i (f n) h)) -> triple L h (modifyM i f) Q.
Proof.
  intros HL Hf HQ HI h' r H Hr. unfold modifyM in H. destruct (h_nodes h !! i) as [n|] eqn:Hn; [|by injection H as <- <-].
  injection H as <- <-. split; [|intros [] _; by apply HQ]. destruct (Hf n) as [v ->]. eapply isteps_one; [done|]. by apply pr_value.
Qed.
Lemma triple_ext (L : lab -> Prop) h i n x (Q : unit -> heap -> Prop) :
  h_nodes h !! i = Some n -> L (LExt i (n_ext n) x) -> ext_change (n_ext n) x -> (Inv h -> ext_ok (info h) (h_next h) (set_ext x n)) ->
  Q tt (upd i (set_ext x n) h) -> triple L h (modifyM i (set_ext x)) Q.
Proof.
  intros Hn HL Hc Hok HQ HI h' r H Hr. rewrite (modifyM_eq _ _ _ _ Hn) in H. injection H as <- <-.
  split; [|by intros [] _]. eapply isteps_one; [done|]. by apply pr_ext; auto.
Qed.
Lemma triple_err_to_panic {A} L h p (m : M A) Q : triple L h m Q -> triple L h (err_to_panic p m) Q.
Proof.
  intros Hm HI h' r H Hr. unfold err_to_panic in H. destruct (m h) as [h1 [a|e|q|]] eqn:E; injection H as <- <-; try done.
  by apply Hm.
Qed.
Ltac tbind R := apply (triple_bind _ _ _ _ _ R).

(** ** Steps without drops keep the static information *)
Definition nodrop (L : lab -> Prop) : Prop := forall l, ~ L (LDrop l).
Lemma prim_info l h h' i s : Inv h -> prim l h h' -> (forall x, l <> LDrop x) -> info h i = Some s -> info h' i = Some s.
Proof.
  intros HI Hp Hd Hs. destruct Hp; try (by rewrite (info_upd i0 _ n)); try by (exfalso; eapply Hd).
  - apply info_inv in Hs as (m & Hm & <-). apply info_some. unfold allocd. cbn. rewrite lookup_insert_ne; [done|].
    pose proof (inv_lt h HI _ _ Hm). lia.
  - rewrite (info_upd p _ np); [by rewrite (info_upd c _ nc)| |done]. by rewrite lookup_upd_ne.
  - destruct (decide (p = c)) as [->|Hne].
    + assert (np = nc) by congruence. subst np. rewrite upd_upd. by rewrite (info_upd c _ nc).
    + rewrite (info_upd c _ nc); [by rewrite (info_upd p _ np)| |done]. by rewrite lookup_upd_ne.
  - destruct (decide (p = c)) as [->|Hne].
    + assert (np = nc) by congruence. subst np. rewrite upd_upd. by rewrite (info_upd c _ nc).
    + rewrite (info_upd c _ nc); [by rewrite (info_upd p _ np)| |done]. by rewrite lookup_upd_ne.
Qed.
Lemma isteps_info L h h' i s : nodrop L -> Inv h -> isteps L h h' -> info h i = Some s -> info h' i = Some s.
Proof.
  intros Hd HI H. induction H as [|h1 h2 h3 (l & Hl & Hp) _ IH]; [done|]. intros Hs. apply IH; [by eapply prim_inv|].
  eapply prim_info; [done|done| |done]. intros x ->. by eapply Hd.
Qed.

Lemma prim_info_back l h h' i s : prim l h h' -> info h' i = Some s -> (i < h_next h)%nat -> info h i = Some s.
Proof.
  intros Hp Hs Hlt. destruct Hp; try (by rewrite (info_upd i0 _ n) in Hs).
  - unfold info, allocd in *. cbn in Hs. by rewrite lookup_insert_ne in Hs by lia.
  - rewrite (info_upd p _ np) in Hs; [by rewrite (info_upd c _ nc) in Hs| |done]. by rewrite lookup_upd_ne.
  - destruct (decide (p = c)) as [->|Hne].
    + assert (np = nc) by congruence. subst np. rewrite upd_upd in Hs. by rewrite (info_upd c _ nc) in Hs.
    + rewrite (info_upd c _ nc) in Hs; [by rewrite (info_upd p _ np) in Hs| |done]. by rewrite lookup_upd_ne.
  - destruct (decide (p = c)) as [->|Hne].
    + assert (np = nc) by congruence. subst np. rewrite upd_upd in Hs. by rewrite (info_upd c _ nc) in Hs.
    + rewrite (info_upd c _ nc) in Hs; [by rewrite (info_upd p _ np) in Hs| |done]. by rewrite lookup_upd_ne.
  - apply info_inv in Hs as (m & Hm & <-). apply lookup_dropped in Hm as [_ Hm]. by apply info_some.
Qed.
Lemma prim_next l h h' : prim l h h' -> (h_next h <= h_next h')%nat.
Proof. intros Hp. destruct Hp; cbn; lia. Qed.
Lemma isteps_next L h h' : isteps L h h' -> (h_next h <= h_next h')%nat.
Proof. intros H. induction H as [|h1 h2 h3 (l & _ & Hp) _ IH]; [done|]. apply prim_next in Hp. lia. Qed.
Lemma isteps_info_back L h h' i s : isteps L h h' -> info h' i = Some s -> (i < h_next h)%nat -> info h i = Some s.
Proof.
  intros H. induction H as [|h1 h2 h3 (l & _ & Hp) _ IH]; [done|]. intros Hs Hlt.
  eapply prim_info_back; [done| |done]. apply IH; [done|]. apply prim_next in Hp. lia.
Qed.

Definition is_doc (h : heap) (d : id) : Prop := exists s, info h d = Some s /\ s_type s = NDocument.
Definition is_el (h : heap) (d : id) : Prop := exists s, info h d = Some s /\ s_type s = NElement.

(** ** The steps of factories, parser and attribute calls *)
Definition Lb (l : lab) : Prop :=
  match l with
  | LAlloc n => n_children n = [] \/ n_type n = NAttribute
  | LAttach _ _ leaf => leaf = true
  | LDetach _ _ | LExt _ _ _ => True
  | _ => False
  end.
Lemma Lb_nodrop : nodrop Lb. Proof. intros l []. Qed.

Lemma parsed_from_str s n : name_from_str s = Ok n -> parsed_name n.
Proof. intros H. exists s. rewrite H. destruct (name_from_str_print s n H) as [_ Hns]. by destruct n as [ns p l]; cbn in Hns; subst. Qed.
Lemma parsed_new_ns u q n : name_new_ns u q = Ok n -> parsed_name n.
Proof.
  intros H. unfold name_new_ns in H. destruct (name_from_str q) as [m| | |] eqn:Hm; try done. cbn [rbind] in H.
  destruct (check_namespace_uri u (nm_prefix m) (nm_local m)); try done. cbn [rbind] in H. injection H as <-.
  apply (parsed_from_str q) in Hm. done.
Qed.

Lemma xml_target_iff s : str_eqb (to_ascii_lowercase s) XML_PI_RESERVED = true <-> xml_target s.
Proof.
  rewrite str_eqb_true. unfold xml_target. split.
  - intros H. change XML_PI_RESERVED with [120%N; 109%N; 108%N] in H. unfold to_ascii_lowercase in H.
    destruct s as [|a [|b [|c [|x s]]]]; try discriminate. cbn [map] in H. injection H as Ha Hb Hc. exists a, b, c. split; [done|].
    assert (G : forall c k, (97 <= k <= 122)%N -> to_lower c = k -> c = k \/ c = (k - 32)%N).
    { intros y k Hk. unfold to_lower, is_ascii_uppercase, in_range. destruct (N.leb_spec 65 y), (N.leb_spec y 90); cbn [andb]; lia. }
    split_and!; [apply (G _ 120%N) in Ha|apply (G _ 109%N) in Hb|apply (G _ 108%N) in Hc]; try lia; done.
  - intros (a & b & c & -> & Ha & Hb & Hc). destruct Ha as [-> | ->], Hb as [-> | ->], Hc as [-> | ->]; by vm_compute.
Qed.
Lemma pi_named t n : str_eqb (to_ascii_lowercase t) XML_PI_RESERVED = false -> name_from_str t = Ok n -> parsed_name n /\ ~ xml_target (name_to_string n).
Proof.
  intros Hx Hn. split; [by eapply parsed_from_str|]. destruct (name_from_str_print _ _ Hn) as [-> _]. intros H%xml_target_iff. congruence.
Qed.
Lemma fresh_ok I nx i n : n_children n = [] -> n_parent n = None -> ext_ok I nx n -> owner_ok I nx n -> name_ok n -> node_ok I nx i n.
Proof.
  intros Hc Hp He Ho Hn. split; [done|]. split; [done|]. split; [intros p; congruence|]. split; [|done].
  split; rewrite Hc; done.
Qed.
Definition wdoc (h : heap) (d : id) : Prop := (d < h_next h)%nat /\ forall s, info h d = Some s -> s_type s = NDocument.
Lemma doc_wdoc h d : Inv h -> is_doc h d -> wdoc h d.
Proof.
  intros HI (s & Hs & Ht). apply info_inv in Hs as (n & Hn & <-). split; [by eapply inv_lt|].
  intros s Hs. rewrite (info_some _ _ _ Hn) in Hs. by injection Hs as <-.
Qed.
Lemma doc_owner h d : wdoc h d -> exists d', Some d = Some d' /\ (d' < h_next h)%nat /\ forall s, info h d' = Some s -> s_type s = NDocument.
Proof. intros [H1 H2]. by exists d. Qed.
Lemma wdoc_alloc h d n : wdoc h d -> wdoc (allocd n h) d.
Proof.
  intros [H1 H2]. split; [cbn; lia|]. intros s Hs. apply H2. unfold info, allocd in *. cbn in Hs. by rewrite lookup_insert_ne in Hs by lia.
Qed.

Definition created (h : heap) (n : node) (i : id) (h' : heap) : Prop := i = h_next h /\ h' = allocd n h.
Lemma triple_new h n : n_children n = [] -> n_parent n = None ->
  (Inv h -> ext_ok (info h) (h_next h) n) -> (Inv h -> owner_ok (info h) (h_next h) n) -> name_ok n ->
  triple Lb h (allocM n) (created h n).
Proof.
  intros Hc Hp He Ho Hn. apply triple_alloc; [by left| |done|done]. intros HI. apply fresh_ok; auto.
Qed.
Lemma triple_handle {A} L h d (m : M A) Q : triple L h m Q -> triple L h (with_handle d m) Q.
Proof. intros Hm. unfold with_handle. tbind (fun (_ : node) h1 => h1 = h); [by apply triple_getM|]. intros n h1 _ ->. done. Qed.
Lemma triple_read {A B} L h (f : heap -> res A) (k : A -> M B) Q :
  (forall a, f h = Ok a -> triple L h (k a) Q) -> triple L h (bind (lift f) k) Q.
Proof.
  intros Hk. tbind (fun a h1 => h1 = h /\ f h = Ok a); [by apply triple_lift|]. intros a h1 _ [-> Ha]. auto.
Qed.
Lemma triple_node {B} L h i (k : node -> M B) Q :
  (forall n, h_nodes h !! i = Some n -> triple L h (k n) Q) -> triple L h (bind (getM i) k) Q.
Proof. intros Hk. apply triple_read. intros n Hn%get_node_ok. auto. Qed.
Lemma triple_inv {A} L h (m : M A) Q : (Inv h -> triple L h m Q) -> triple L h m Q.
Proof. intros H HI. by apply H. Qed.

(** Factories. *)
Section factories.
  Context (h : heap) (d : id) (Hd : wdoc h d).
  Ltac fac := apply triple_new; [done|done|try done|intros HI; by apply (doc_owner h d)|try done].
  Lemma t_text s : triple Lb h (allocM (new_text d s)) (created h (new_text d s)). Proof. fac. Qed.
  Lemma t_cdata s : triple Lb h (allocM (new_cdata d s)) (created h (new_cdata d s)). Proof. fac. Qed.
  Lemma t_comment s : triple Lb h (allocM (new_comment d s)) (created h (new_comment d s)). Proof. fac. Qed.
  Lemma t_fragment : triple Lb h (allocM (new_document_fragment d)) (created h (new_document_fragment d)). Proof. fac. Qed.
  Lemma t_element nm : parsed_name nm -> triple Lb h (allocM (new_element d nm)) (created h (new_element d nm)).
  Proof. intros Hn. fac. intros _. split; [done|]. split; [constructor|]. split; [intros k a []|]. split; [constructor|intros k u []]. Qed.
  Lemma t_pi nm s : parsed_name nm /\ ~ xml_target (name_to_string nm) -> triple Lb h (allocM (new_processing_instruction d nm s)) (created h (new_processing_instruction d nm s)).
  Proof. intros Hn. fac. Qed.
  Lemma t_ref nm : parsed_name nm -> triple Lb h (allocM (new_entity_reference d nm)) (created h (new_entity_reference d nm)).
  Proof. intros Hn. fac. Qed.
  Lemma t_notation nm p s : parsed_name nm -> triple Lb h (allocM (new_notation (Some d) nm p s)) (created h (new_notation (Some d) nm p s)).
  Proof. intros Hn. fac. Qed.
  Lemma t_entity nm p s : parsed_name nm -> triple Lb h (allocM (new_entity (Some d) nm p s)) (created h (new_entity (Some d) nm p s)).
  Proof. intros Hn. fac. Qed.
  Lemma t_ientity nm v : parsed_name nm -> triple Lb h (allocM (new_internal_entity (Some d) nm v)) (created h (new_internal_entity (Some d) nm v)).
  Proof. intros Hn. fac. Qed.
  Definition attr_node (nm : Name) (l : list id) : node := mkNode NAttribute nm None None (Some d) l (XAttribute None).
  (** A new attribute: without value, or with a text child allocated just before it. *)
  Definition attr_created (nm : Name) (v : option str) (a : id) (h' : heap) : Prop :=
    match v with
    | None => created h (attr_node nm []) a h'
    | Some s => created (allocd (new_text d s) h) (attr_node nm [h_next h]) a h'
    end.
  Lemma t_attr nm v : parsed_name nm ->
    triple Lb h (do? a := new_attribute d nm v in allocM a) (attr_created nm v).
  Proof.
    intros Hn. unfold new_attribute. destruct v as [v|].
    - tbind (fun n h1 => n = attr_node nm [h_next h] /\ h1 = allocd (new_text d v) h).
      { tbind (fun l h1 => l = [h_next h] /\ h1 = allocd (new_text d v) h).
        { tbind (created h (new_text d v)); [apply t_text|]. intros i h1 _ [-> ->]. by apply triple_ret. }
        intros l h1 _ [-> ->]. by apply triple_ret. }
      intros n h1 Hs [-> ->]. apply triple_alloc; [by right| |done|done]. intros HI.
      set (h1 := allocd (new_text d v) h) in *.
      assert (Hd1 : wdoc h1 d) by (by apply wdoc_alloc).
      assert (Htx : info h1 (h_next h) = Some (static (new_text d v))) by (apply info_some; unfold h1, allocd; cbn; by rewrite lookup_insert).
      split; [split; done|]. split; [by apply (doc_owner h1 d)|]. split; [intros p [=]|]. split; [|done]. split.
      + intros c [<-|[]]. split; [unfold h1; cbn; lia|]. exists (static (new_text d v)). split; [done|]. done.
      + done.
    - tbind (fun n h1 => n = attr_node nm [] /\ h1 = h); [tbind (fun l h1 => l = @nil id /\ h1 = h); [by apply triple_ret|intros l h1 _ [-> ->]; by apply triple_ret]|].
      intros n h1 _ [-> ->]. apply triple_new; [done|done|done|intros HI; by apply (doc_owner h d)|done].
  Qed.
End factories.

(** Inserting a childless node. *)
Lemma t_insert_leaf h p c r : (forall nc, h_nodes h !! c = Some nc -> n_children nc = []) ->
  triple Lb h (insert_before p c r) (fun a _ => a = c).
Proof.
  intros Hl HI h' x H Hr. split.
  - eapply insert_before_steps; [done|done|done|done|]. intros nc Hc. cbn. by rewrite (Hl nc Hc).
  - intros a ->. destruct (insert_before_inv h h' p c r _ HI H Hr) as (np & nc & _ & _ & [(e & ? & _)|([= ->] & _)]); done.
Qed.
Lemma created_leaf h n i h' : created h n i h' -> n_children n = [] -> forall nc, h_nodes h' !! i = Some nc -> n_children nc = [].
Proof. intros [-> ->] Hn nc Hc. unfold allocd in Hc. cbn in Hc. rewrite lookup_insert in Hc. by injection Hc as <-. Qed.
Lemma created_info h n i h' : created h n i h' -> info h' i = Some (static n).
Proof. intros [-> ->]. apply info_some. unfold allocd. cbn. by rewrite lookup_insert. Qed.
Lemma isteps_doc L h h' d : nodrop L -> Inv h -> isteps L h h' -> is_doc h d -> is_doc h' d.
Proof. intros HL HI Hs (s & H1 & H2). exists s. split; [by eapply isteps_info|done]. Qed.
Lemma isteps_el L h h' d : nodrop L -> Inv h -> isteps L h h' -> is_el h d -> is_el h' d.
Proof. intros HL HI Hs (s & H1 & H2). exists s. split; [by eapply isteps_info|done]. Qed.

Lemma t_create_document h u q t o : (forall t', t = Some t' -> exists s, info h t' = Some s /\ s_type s = NDocumentType) ->
  triple Lb h (create_document_with_options u q t o) (fun d h' => is_doc h' d).
Proof.
  intros Ht. unfold create_document_with_options. apply triple_inv. intros HI.
  tbind (fun (_ : unit) h1 => h1 = h).
  { destruct t as [t|]; [|by apply triple_ret]. apply triple_handle. by apply triple_ret. }
  intros _ h1 _ ->. tbind (created h (new_document t o)).
  { apply triple_new; [done|done| |done|done]. intros _. split; [done|]. split; [done|]. intros k e []. }
  intros d h1 Hs1 Hc. assert (HI1 : Inv h1) by (by eapply isteps_inv).
  assert (Hd : is_doc h1 d) by (exists (static (new_document t o)); split; [by eapply created_info|done]).
  tbind (fun (e : option id) h2 => is_doc h2 d /\ forall e', e = Some e' -> forall nc, h_nodes h2 !! e' = Some nc -> n_children nc = []).
  { assert (Hel : forall m : M id, triple Lb h1 m (fun i h2 => exists nm, created h1 (new_element d nm) i h2) ->
      triple Lb h1 (do? e := m in ret (Some e)) (fun (e : option id) h2 => is_doc h2 d /\ forall e', e = Some e' -> forall nc, h_nodes h2 !! e' = Some nc -> n_children nc = [])).
    { intros m Hm. tbind (fun i h2 => exists nm, created h1 (new_element d nm) i h2); [done|]. intros i h2 Hs2 (nm & Hcr).
      apply triple_ret. split; [eapply isteps_doc; [apply Lb_nodrop|done|done|done]|]. intros e' [= <-]. by eapply created_leaf. }
    destruct u as [u|], q as [q|]; try apply triple_fail.
    - apply Hel. unfold create_element_ns. apply triple_handle, triple_read. intros nm Hnm.
      eapply triple_weaken; [apply t_element; [by apply doc_wdoc|by eapply parsed_new_ns]|]. eauto.
    - apply Hel. unfold create_element. apply triple_handle, triple_read. intros nm Hnm.
      eapply triple_weaken; [apply t_element; [by apply doc_wdoc|by eapply parsed_from_str]|]. eauto.
    - apply triple_ret. done. }
  intros e h2 Hs2 [Hd2 He]. assert (HI2 : Inv h2) by (by eapply isteps_inv). tbind (fun (_ : unit) h3 => is_doc h3 d).
  { destruct e as [e|]; [|by apply triple_ret]. tbind (fun a (_ : heap) => a = e); [apply t_insert_leaf; by apply He|].
    intros a h3 Hs3 _. apply triple_ret. eapply isteps_doc; [apply Lb_nodrop|done|done|done]. }
  intros _ h3 _ Hd3. by apply triple_ret.
Qed.

Lemma t_create_attribute_with h d name v : is_doc h d ->
  triple Lb h (create_attribute_with d name v) (fun a h' => exists s, info h' a = Some s).
Proof.
  intros Hd. apply triple_inv. intros HI. unfold create_attribute_with. apply triple_handle, triple_read. intros nm Hnm.
  eapply triple_weaken; [apply t_attr; [by apply doc_wdoc|by eapply parsed_from_str]|]. intros a h' _ _ Ha. cbn in Ha. eauto using created_info.
Qed.

(** ** set_attribute_node *)
Lemma info_ext i n x h : h_nodes h !! i = Some n -> forall j, info (upd i (set_ext x n) h) j = info h j.
Proof. intros H. by apply (info_upd i _ n). Qed.

Lemma ns_attribute_prefix n : is_namespace_attribute n = true -> nm_prefix n = None \/ nm_prefix n = Some XMLNS_NS_ATTRIBUTE.
Proof.
  unfold is_namespace_attribute. intros [_ H]%andb_true_iff. apply orb_true_iff in H as [[_ H]%andb_true_iff|H]; unfold ostr_eqb in H; apply bool_decide_eq_true in H; auto.
Qed.
Lemma t_insert_mapping h e p u : p = None \/ p = Some XMLNS_NS_ATTRIBUTE -> triple Lb h (insert_mapping e p u) (fun _ h' => forall j, info h' j = info h j).
Proof.
  intros Hkey. unfold insert_mapping. apply triple_read. intros b Hb. destruct b; cbn [negb]; [|by apply triple_ret].
  apply triple_node. intros n Hn. destruct (is_type NElement n); [|apply triple_fail].
  destruct (n_ext n) as [| | | |a ns| |] eqn:Hx; try apply triple_fail.
  eapply triple_ext; [done|done|rewrite Hx; constructor| |by apply info_ext].
  intros HI. destruct (inv_node h HI e n Hn) as (He & _). unfold ext_ok in *. rewrite Hx in He. cbn.
  destruct He as (H1 & H2 & H3 & H4 & H5). split_and!; [done..|by apply hm_insert_nodup|].
  intros k x Hin. apply hm_insert_in in Hin as [[-> _]|Hin]; [done|by eapply H5].
Qed.

Lemma t_set_attribute_node E h e a : triple Lb h (set_attribute_node E e a) (fun r _ => r = a).
Proof.
  unfold set_attribute_node. apply triple_inv. intros HI. apply triple_node. intros ne He. apply triple_node. intros na Ha.
  destruct (is_type NElement ne && is_type NAttribute na) eqn:Ht; cbn [negb]; [|apply triple_fail].
  apply andb_true_iff in Ht as [Hte%is_type_true Hta%is_type_true].
  apply triple_read. intros [] Hcsd.
  destruct (csd_ok h e a ne na HI He Ha ltac:(congruence) ltac:(congruence) Hcsd) as [_ Ho].
  specialize (Ho ltac:(congruence)).
  assert (Hea : e <> a) by congruence.
  tbind (fun (_ : unit) h1 => forall j, info h1 j = info h j).
  { destruct (n_ext na) as [|o| | | | |] eqn:Hx; try apply triple_panic.
    eapply triple_ext; [done|done|rewrite Hx; constructor| |by apply info_ext].
    intros _. split; [done|]. intros x [= <-]. split; [by eapply inv_lt|]. intros s Hs.
    rewrite (info_some _ _ _ He) in Hs. by injection Hs as <-. }
  intros _ h1 Hs1 Hi1. assert (HI1 : Inv h1) by (by eapply isteps_inv).
  tbind (fun (_ : unit) h2 => forall j, info h2 j = info h j).
  { destruct (is_namespace_attribute (n_name na)) eqn:Hisns; [|by apply triple_ret].
    apply triple_read. intros v _. eapply triple_weaken; [apply t_insert_mapping; by apply ns_attribute_prefix|]. intros [] h2 _ _ H2 j. by rewrite H2. }
  intros _ h2 Hs2 Hi2. assert (HI2 : Inv h2) by (by eapply isteps_inv).
  apply triple_node. intros ne2 He2.
  assert (Hse : static ne2 = static ne).
  { pose proof (Hi2 e) as Hx. rewrite (info_some _ _ _ He2), (info_some _ _ _ He) in Hx. congruence. }
  destruct (n_ext ne2) as [| | | |attrs nss| |] eqn:Hx; try apply triple_fail.
  tbind (fun (_ : unit) h3 => forall j, info h3 j = info h j).
  { eapply triple_ext; [done|done|rewrite Hx; constructor| |intros j; rewrite (info_ext e ne2) by done; apply Hi2].
    intros _. destruct (inv_node h2 HI2 e ne2 He2) as (Hex & _). unfold ext_ok in Hex |- *. rewrite Hx in Hex. cbn.
    destruct Hex as (H1 & H2 & H3 & H4). split; [done|]. split; [by apply hm_insert_nodup|]. split; [|done].
    intros k x Hin. apply hm_insert_in in Hin as [[-> ->]|Hin]; [|by apply H3].
    exists (static na). rewrite Hi2. split; [by apply info_some|]. split; [done|]. split; [done|].
    injection Hse as _ _ ->. cbn. done. }
  intros _ h3 Hs3 Hi3. assert (HI3 : Inv h3) by (by eapply isteps_inv).
  apply triple_read. intros d Hd. destruct (bool_decide (d = _)); [apply triple_panic|]. apply triple_node. intros nd Hnd.
  destruct (is_id_attribute _ _); [|by apply triple_ret].
  destruct (n_ext nd) as [| |decl dt m o| | | |] eqn:Hxd; try by apply triple_ret.
  apply triple_read. intros v _. destruct (hm_get v m) eqn:Hg; [apply triple_fail|].
  tbind (fun (_ : unit) (_ : heap) => True).
  { eapply triple_ext; [done|done|rewrite Hxd; by constructor| |done].
    intros _. destruct (inv_node h3 HI3 d nd Hnd) as (Hex & _). unfold ext_ok in Hex |- *. rewrite Hxd in Hex. cbn.
    destruct Hex as (H1 & H2 & H3). split; [done|]. split; [done|]. intros k x Hin.
    apply hm_insert_in in Hin as [[-> ->]|Hin]; [|by eapply H3].
    pose proof (Hi3 e) as Hie. rewrite (info_some _ _ _ He) in Hie. split.
    - apply info_inv in Hie as (m' & Hm' & _). by eapply inv_lt.
    - intros s Hs. rewrite Hie in Hs. injection Hs as <-. done. }
  intros _ h4 _ _. by apply triple_ret.
Qed.

Lemma t_set_new_attribute E h e nm v : is_el h e -> parsed_name nm ->
  triple Lb h (set_new_attribute E e nm v) (fun _ _ => True).
Proof.
  intros He Hnm. apply triple_inv. intros HI. unfold set_new_attribute. apply triple_node. intros ne Hne. apply triple_read. intros d Hd.
  destruct (n_owner ne) as [d'|] eqn:Ho; [|done]. injection Hd as <-.
  assert (Hw : wdoc h d').
  { destruct He as (s & Hs & Ht). rewrite (info_some _ _ _ Hne) in Hs. injection Hs as <-. cbn in Ht.
    destruct (owner_some h e ne HI Hne ltac:(congruence) ltac:(congruence)) as (d & Hd & Hlt & Hdt).
    rewrite Ho in Hd. injection Hd as <-. split; [done|]. intros s Hs. apply info_inv in Hs as (nd & Hnd & <-). by eapply Hdt. }
  apply triple_assoc.
  tbind (attr_created h d' nm (Some v)); [by apply t_attr|]. intros a h1 _ _.
  tbind (fun r (_ : heap) => r = a); [apply t_set_attribute_node|]. intros _ h2 _ _. by apply triple_ret.
Qed.

(** ** Which steps each call may take *)
Definition inserts (o : op) : option (id * id) :=
  match o with
  | OInsertBefore p c _ | OAppendChild p c | OReplaceChild p c _ => Some (p, c)
  | _ => None
  end.
Definition removes (o : op) (p c : id) : Prop :=
  match o with
  | ORemoveChild p' c' | OReplaceChild p' _ c' => p' = p /\ c' = c
  | ONormalize p' => p' = p
  | _ => False
  end.
Definition sets_value (o : op) (i : id) : Prop :=
  match o with
  | OSetNodeValue j _ | OUnsetNodeValue j | OAppendData j _ | OInsertData j _ _ | ODeleteData j _ _
  | OReplaceData j _ _ _ | OSplit j _ => j = i
  | ONormalize _ => True
  | _ => False
  end.
Definition clears (o : op) (i : id) : Prop :=
  match o with OAttrSetValue j _ | OAttrUnsetValue j => j = i | _ => False end.
Definition oplab (h0 : heap) (o : op) (l : lab) : Prop :=
  match l with
  | LAlloc n => (n_children n = [] \/ n_type n = NAttribute \/ exists i, o = OClone true i) /\ inserts o = None
  | LValue i => sets_value o i
  | LAttach p c leaf => match inserts o with Some (p', c') => p' = p /\ c' = c | None => leaf = true end
  | LRemove p t c => removes o p c /\ exists np, h_nodes h0 !! p = Some np /\ n_type np = t
  | LDetach _ _ => True
  | LClear i => clears o i
  | LExt _ _ _ => True
  | LUnparent i t => t = NAttribute \/ exists e, o = ORemoveAttributeNode e i /\ exists n, h_nodes h0 !! i = Some n /\ n_type n = t
  | LDrop l => o = ODrop l
  end.
Lemma Lb_oplab h0 o l : inserts o = None -> Lb l -> oplab h0 o l.
Proof. intros Hi. destruct l; cbn; try done; [tauto|]. by rewrite Hi. Qed.
Lemma triple_Lb {A} h0 o h (m : M A) Q : inserts o = None -> triple Lb h m Q -> triple (oplab h0 o) h m Q.
Proof. intros Hi. apply triple_labels. intros l. by apply Lb_oplab. Qed.

(** ** Removals *)
Lemma t_remove_child (L : lab -> Prop) h p c : (forall np, h_nodes h !! p = Some np -> L (LRemove p (n_type np) c)) ->
  triple L h (remove_child p c) (fun r _ => r = c).
Proof.
  intros HL HI h' r H Hr. destruct (remove_child_inv h h' p c r HI H Hr) as (np & Hp & [(_ & -> & ->)|(nc & k & Hc & Hk & Hne & -> & ->)]).
  - split; [apply isteps_nil|]. by intros a [=].
  - split; [|by intros a [= <-]]. eapply isteps_one; [by apply HL|]. by apply pr_remove.
Qed.
Lemma t_insert (L : lab -> Prop) h p c r : (forall q, L (LDetach q c)) -> (forall leaf, L (LAttach p c leaf)) ->
  triple L h (insert_before p c r) (fun a _ => a = c).
Proof.
  intros H1 H2 HI h' x H Hr. split; [eapply insert_before_steps; eauto|].
  intros a ->. destruct (insert_before_inv h h' p c r _ HI H Hr) as (np & nc & _ & _ & [(e & ? & _)|([= ->] & _)]); done.
Qed.
Lemma t_append_data (L : lab -> Prop) h i x : L (LValue i) ->
  triple L h (append_data i x) (fun _ h' => forall j, info h' j = info h j).
Proof.
  intros HL. unfold append_data. destruct (is_nil x); [by apply triple_ret|].
  apply triple_value; [done|eauto|]. intros n Hn. by apply (info_upd i _ n).
Qed.

Lemma t_normalize h i : triple (oplab h (ONormalize i)) h (normalize i) (fun _ _ => True).
Proof.
  unfold normalize. apply triple_node. intros ni Hi.
  set (L := oplab h (ONormalize i)).
  assert (G : forall l h1, info h1 i = Some (static ni) -> triple L h1 (iterM (normalize_step i) l) (fun _ _ => True)).
  { induction l as [|c l IH]; intros h1 Hi1; cbn [iterM]; [by apply triple_ret|].
    apply triple_inv. intros HI1.
    assert (Hrm : forall h2, info h2 i = Some (static ni) -> triple L h2 (err_to_panic PExplicit (remove_child i c)) (fun _ _ => True)).
    { intros h2 Hi2. apply triple_err_to_panic. eapply triple_weaken; [apply t_remove_child|done].
      intros np Hp. cbn. split; [done|]. exists ni. split; [done|]. rewrite (info_some _ _ _ Hp) in Hi2. by injection Hi2 as -> _ _. }
    tbind (fun (_ : unit) (_ : heap) => True).
    - unfold normalize_step. apply triple_node. intros nc Hc. destruct (is_type NText nc); [|by apply triple_ret].
      apply triple_read. intros len _. destruct (_ =? _)%N.
      + tbind (fun (_ : id) (_ : heap) => True); [by apply Hrm|]. intros. by apply triple_ret.
      + apply triple_read. intros [p|] _; [|by apply triple_ret]. apply triple_node. intros np Hp.
        destruct (is_type NText np); [|by apply triple_ret]. apply triple_read. intros v _.
        tbind (fun (_ : unit) h2 => forall j, info h2 j = info h1 j); [apply triple_err_to_panic, t_append_data; done|].
        intros _ h2 _ Hi2. tbind (fun (_ : id) (_ : heap) => True); [apply Hrm; by rewrite Hi2|]. intros. by apply triple_ret.
    - intros _ h2 Hs _. apply IH. eapply isteps_info; [|done|done|done]. intros x; cbn; intros [=]. }
  apply G. by apply info_some.
Qed.

Lemma t_replace_child h p c o : triple (oplab h (OReplaceChild p c o)) h (replace_child p c o) (fun r _ => r = o).
Proof.
  unfold replace_child. apply triple_node. intros np Hp. apply triple_node. intros nc Hc.
  destruct (negb _); [apply triple_fail|]. destruct (bool_decide _); [|apply triple_fail].
  apply triple_read. intros next _. tbind (fun r (_ : heap) => r = o).
  - apply t_remove_child. intros np' Hp'. assert (np' = np) by congruence. subst. cbn. eauto.
  - intros r h1 _ ->. tbind (fun a (_ : heap) => a = c).
    + apply t_insert; cbn; done.
    + intros _ h2 _ _. by apply triple_ret.
Qed.

(** ** Clones *)
Lemma mapM_triple {A B} L h (f : A -> M B) l (P : A -> B -> heap -> Prop) :
  Inv h ->
  (forall a h1, isteps L h h1 -> Inv h1 -> In a l -> triple L h1 (f a) (P a)) ->
  (forall a b h1 h2, isteps L h1 h2 -> Inv h1 -> P a b h1 -> P a b h2) ->
  triple L h (mapM_ f l) (fun r h' => Forall2 (fun a b => P a b h') l r).
Proof.
  intros HI Hf Hm. revert h HI Hf. induction l as [|a l IH]; intros h HI Hf; cbn [mapM_]; [apply triple_ret; constructor|].
  tbind (P a). { apply Hf; [apply isteps_nil|done|by left]. }
  intros b h1 Hs1 Hb. assert (HI1 : Inv h1) by (by eapply isteps_inv).
  tbind (fun r h' => Forall2 (fun a b => P a b h') l r /\ P a b h').
  { eapply triple_weaken; [apply IH; [done|]|].
    - intros a' h2 Hs2 HI2 Hin. apply Hf; [by eapply isteps_app|done|by right].
    - intros r h2 Hs2 HI2 Hr. split; [done|]. by eapply Hm. }
  intros r h2 Hs2 [Hr Hb2]. apply triple_ret. by constructor.
Qed.

Lemma t_clone_rec (L : lab -> Prop) deep : nodrop L -> (forall n, n_children n = [] \/ deep = true -> L (LAlloc n)) ->
  forall k h i, triple L h (clone_rec k deep i) (fun a h' => info h' a = info h i).
Proof.
  intros Hnd HL. induction k as [|k IH]; intros h i; [intros _ h' r [= <- <-] []|].
  cbn [clone_rec]. apply triple_inv. intros HI. apply triple_node. intros n Hn.
  tbind (fun r h' => Forall2 (fun a b => info h' b = info h a) (if deep then n_children n else []) r).
  { destruct deep; [|apply triple_ret; constructor].
    eapply triple_weaken; [apply (mapM_triple L h (clone_rec k true) (n_children n)
       (fun a b h' => info h' b = info h a /\ exists s, info h a = Some s)); [done|..]|].
    - intros a h1 Hs1 HI1 Hin.
      assert (Hal : exists s, info h a = Some s).
      { destruct (inv_node h HI i n Hn) as (_ & _ & _ & [H4 _] & _). destruct (H4 a Hin) as (_ & s & Hs & _). eauto. }
      destruct Hal as [s Hs].
      eapply triple_weaken; [apply IH|]. intros b h2 Hs2 HI2 Hb. rewrite Hb. split; [|eauto]. rewrite Hs. by apply (isteps_info L h h1).
    - intros a b h1 h2 Hs HI1 [H1 (s & H2)]. split; [|eauto]. rewrite H2 in *. by apply (isteps_info L h1 h2).
    - intros r h' _ _ H. apply (Forall2_impl _ _ _ _ H). by intros x y [? _]. }
  intros r h1 Hs1 Hr. assert (HI1 : Inv h1) by (by eapply isteps_inv).
  set (n' := mkNode (n_type n) (n_name n) (n_value n) None (n_owner n) r (n_ext n)).
  assert (Hnok : node_ok (info h) (h_next h) i n) by (by apply inv_node).
  assert (Hin1 : info h1 i = Some (static n)) by (apply (isteps_info L h h1); [done|done|done|by apply info_some]).
  assert (Hn1 : exists n1, h_nodes h1 !! i = Some n1 /\ static n1 = static n) by (by apply info_inv).
  assert (Hch : forall b, In b r -> exists a s, In a (n_children n) /\ info h1 b = Some s /\ info h a = Some s).
  { intros b Hb%elem_of_list_In%elem_of_list_lookup_1. destruct Hb as [j Hb].
    destruct (Forall2_lookup_r _ _ _ _ _ Hr Hb) as (a & Ha & Hab).
    assert (Hin : In a (n_children n)).
    { destruct deep; [|by rewrite lookup_nil in Ha]. by eapply elem_of_list_In, elem_of_list_lookup_2. }
    destruct Hnok as (_ & _ & _ & [H4 _] & _). destruct (H4 a Hin) as (_ & s & Hs & _). exists a, s. split; [done|]. by rewrite Hab. }
  apply triple_alloc.
  - apply HL. cbn. destruct deep; [by right|]. left. by inversion Hr.
  - intros _. destruct Hnok as (He & Ho & Hp & [Hc Hone] & Hnm).
    (* the same node without children is fine in [h1] *)
    assert (Hbase : node_ok (info h1) (h_next h1) (h_next h1) (mkNode (n_type n) (n_name n) (n_value n) None (n_owner n) [] (n_ext n))).
    { apply (node_ok_mono (info h) _ (h_next h)); [| |by eapply isteps_next|].
      - intros x s _ Hs. by apply (isteps_info L h h1).
      - intros j s Hj Hlt. by eapply isteps_info_back.
      - apply fresh_ok; [done|done|exact He|exact Ho|exact Hnm]. }
    destruct Hbase as (B1 & B2 & _ & _ & B5). split; [exact B1|]. split; [exact B2|]. split; [intros p [=]|]. split; [|exact B5].
    split.
    + intros b Hb. destruct (Hch b Hb) as (a & s & Hin & Hb1 & Ha). destruct (Hc a Hin) as (_ & s' & Hs' & Hlk).
      assert (s' = s) by congruence. subst s'. split; [|by exists s].
      apply info_inv in Hb1 as (nb & Hnb & _). pose proof (inv_lt h1 HI1 _ _ Hnb). lia.
    + cbn. intros Ht j1 j2 b1 b2 s1 s2 Hb1 Hb2 Hs1' Hs2' Ht1 Ht2.
      destruct (Forall2_lookup_r _ _ _ _ _ Hr Hb1) as (a1 & Ha1 & Hab1). destruct (Forall2_lookup_r _ _ _ _ _ Hr Hb2) as (a2 & Ha2 & Hab2).
      destruct deep; [|by rewrite lookup_nil in Ha1]. rewrite Hab1 in Hs1'. rewrite Hab2 in Hs2'. by eapply (Hone Ht j1 j2 a1 a2 s1 s2).
  - done.
  - rewrite (info_some _ _ _ Hn). unfold info, allocd. cbn. by rewrite lookup_insert.
Qed.

(** ** Values *)
Lemma t_set_value (L : lab -> Prop) h i v : L (LValue i) -> triple L h (modifyM i (set_value v)) (fun _ h' => forall j, info h' j = info h j).
Proof. intros HL. apply triple_value; [done|eauto|]. intros n Hn. by apply (info_upd i _ n). Qed.
Lemma t_replace_data (L : lab -> Prop) E h i off cnt x : L (LValue i) ->
  triple L h (replace_data E i off cnt x) (fun _ h' => forall j, info h' j = info h j).
Proof.
  intros HL. unfold replace_data. apply triple_node. intros n Hn. apply triple_read. intros v _. by apply t_set_value.
Qed.
Lemma t_insert_data (L : lab -> Prop) E h i off x : L (LValue i) ->
  triple L h (insert_data E i off x) (fun _ h' => forall j, info h' j = info h j).
Proof. intros HL. unfold insert_data. destruct (is_nil x); [by apply triple_ret|]. by apply t_replace_data. Qed.
Lemma t_delete_data (L : lab -> Prop) E h i off cnt : L (LValue i) ->
  triple L h (delete_data E i off cnt) (fun _ h' => forall j, info h' j = info h j).
Proof.
  intros HL. unfold delete_data. apply triple_read. intros e _. destruct (_ =? _)%N; [by apply triple_ret|]. by apply t_replace_data.
Qed.

Lemma owner_wdoc h i n d : Inv h -> h_nodes h !! i = Some n -> n_type n <> NDocument -> n_type n <> NDocumentType ->
  n_owner n = Some d -> wdoc h d.
Proof.
  intros HI Hn H1 H2 Ho. destruct (owner_some h i n HI Hn H1 H2) as (d' & Hd & Hlt & Hdt). rewrite Ho in Hd. injection Hd as <-.
  split; [done|]. intros s Hs. apply info_inv in Hs as (nd & Hnd & <-). by eapply Hdt.
Qed.

Lemma t_split E h h0 i off : triple (oplab h0 (OSplit i off)) h (DomOps.split E i off) (fun _ _ => True).
Proof.
  unfold DomOps.split. apply triple_node. intros n Hn. destruct (negb _); [apply triple_fail|]. apply triple_read. intros len _.
  tbind (fun (_ : str) (_ : heap) => True).
  { destruct (_ <=? _)%N; [by apply triple_ret|]. apply triple_read. intros s _.
    tbind (fun (_ : unit) (_ : heap) => True); [|intros; by apply triple_ret].
    eapply triple_weaken; [by apply t_delete_data|done]. }
  intros s h1 _ _. apply triple_inv. intros HI1. apply triple_node. intros n1 Hn1.
  tbind (fun n' h2 => h2 = h1 /\ triple Lb h1 (allocM n') (created h1 n') /\ n_children n' = []).
  { destruct (n_type n1) eqn:Ht; try apply triple_fail.
    - apply triple_read. intros d Hd. destruct (n_owner n1) as [d'|] eqn:Ho; [|done]. injection Hd as <-. apply triple_ret.
      split; [done|]. split; [|done]. apply t_text. eapply owner_wdoc; [done|done|congruence|congruence|done].
    - apply triple_read. intros d Hd. destruct (n_owner n1) as [d'|] eqn:Ho; [|done]. injection Hd as <-. apply triple_ret.
      split; [done|]. split; [|done]. apply t_cdata. eapply owner_wdoc; [done|done|congruence|congruence|done]. }
  intros n' h2 _ (-> & Hal & Hnil). tbind (created h1 n'); [by apply triple_Lb|]. intros new h3 _ Hcr.
  apply triple_read. intros [p|] _; [|by apply triple_ret]. apply triple_read. intros next _.
  tbind (fun a (_ : heap) => a = new); [|intros; by apply triple_ret]. apply triple_Lb; [done|]. apply t_insert_leaf.
  by eapply created_leaf.
Qed.

(** ** Attributes *)
Lemma t_attr_clear (L : lab -> Prop) h i n : h_nodes h !! i = Some n -> n_type n = NAttribute -> L (LClear i) ->
  triple L h (attr_unset_value i) (fun _ h' => forall j, info h' j = info h j).
Proof.
  intros Hn Ht HL HI h' r H Hr. unfold attr_unset_value in H. rewrite (modifyM_eq _ _ _ _ Hn) in H. injection H as <- <-.
  split; [|intros a _; by apply (info_upd i _ n)]. eapply isteps_one; [done|]. by apply pr_clear.
Qed.
Lemma t_attr_set_value h h0 i v n : h_nodes h !! i = Some n -> n_type n = NAttribute ->
  triple (oplab h0 (OAttrSetValue i v)) h (attr_set_value i v) (fun _ _ => True).
Proof.
  intros Hn Ht. unfold attr_set_value. tbind (fun (_ : unit) h' => forall j, info h' j = info h j); [by eapply t_attr_clear|].
  intros _ h1 _ Hi1. apply triple_inv. intros HI1. apply triple_read. intros d Hd. apply triple_node. intros nd Hnd.
  destruct (is_type NDocument nd) eqn:Htd; cbn [negb]; [|apply triple_panic]. apply is_type_true in Htd.
  tbind (created h1 (new_text d v)).
  { apply triple_Lb; [done|]. apply t_text. apply doc_wdoc; [done|]. exists (static nd). split; [by apply info_some|done]. }
  intros t h2 _ Hcr. tbind (fun a (_ : heap) => a = t); [|intros; by apply triple_ret].
  apply triple_Lb; [done|]. apply t_insert_leaf. by eapply created_leaf.
Qed.
Lemma t_remove_attribute_node (L : lab -> Prop) h e a : (forall x y z, L (LExt x y z)) ->
  (forall na, h_nodes h !! a = Some na -> L (LUnparent a (n_type na))) ->
  triple L h (remove_attribute_node e a) (fun r _ => r = a).
Proof.
  intros HL1 HL2. unfold remove_attribute_node. apply triple_inv. intros HI. apply triple_node. intros ne He.
  destruct (is_type NElement ne); [|apply triple_fail].
  destruct (n_ext ne) as [| | | |attrs nss| |] eqn:Hx; try apply triple_fail.
  destruct (decide (a = e)) as [->|Hne]; [rewrite bool_decide_true by done; apply triple_panic|].
  rewrite bool_decide_false by done. apply triple_node. intros na Ha.
  tbind (fun (_ : unit) h1 => h_nodes h1 !! a = Some na).
  { eapply triple_ext; [done|done|rewrite Hx; constructor| |by rewrite lookup_upd_ne].
    intros _. destruct (inv_node h HI e ne He) as (Hex & _). unfold ext_ok in Hex |- *. rewrite Hx in Hex. cbn.
    destruct Hex as (H1 & H2 & H3 & H4). split; [done|]. split; [by apply hm_remove_nodup|]. split; [|done].
    intros k x Hin. apply hm_remove_in in Hin. by apply H3. }
  intros _ h1 _ Ha1. tbind (fun (_ : unit) (_ : heap) => True); [|intros; by apply triple_ret].
  intros HI1 h' r H Hr. rewrite (modifyM_eq _ _ _ _ Ha1) in H. injection H as <- <-. split; [|done].
  eapply isteps_one; [by apply HL2|]. by apply pr_unparent.
Qed.
Lemma get_attribute_node_in E h e s a ne : wf_env E -> h_nodes h !! e = Some ne -> get_attribute_node E h e s = Ok (Some a) ->
  exists k attrs ns, n_ext ne = XElement attrs ns /\ In (k, a) attrs.
Proof.
  intros HE He H. unfold get_attribute_node in H. rewrite (get_node_some _ _ _ He) in H. cbn [rbind] in H.
  destruct (is_type NElement ne); [|done]. destruct (name_from_str s) as [nm| | |]; try done.
  injection H as H. destruct (n_ext ne) as [| | | |attrs nss| |]; try done.
  destruct (find_first _ _) as [[k a']|] eqn:Hf; [|done]. cbn in H. injection H as ->.
  exists k, attrs, nss. split; [done|].
  assert (G : forall (p : Name * id -> bool) l x, find_first p l = Some x -> In x l).
  { intros p l x. induction l as [|y l IH]; [done|]. cbn. destruct (p y); [intros [= ->]; by left|]. auto. }
  apply G in Hf. apply elem_of_list_In. rewrite <- (wf_ord_attr E HE attrs). by apply elem_of_list_In.
Qed.
Lemma get_attribute_node_ns_in E h e u s a ne : wf_env E -> h_nodes h !! e = Some ne -> get_attribute_node_ns E h e u s = Ok (Some a) ->
  exists k attrs ns, n_ext ne = XElement attrs ns /\ In (k, a) attrs.
Proof.
  intros HE He H. unfold get_attribute_node_ns in H. rewrite (get_node_some _ _ _ He) in H. cbn [rbind] in H.
  destruct (is_type NElement ne); [|done]. destruct (name_new_ns u s) as [nm| | |]; try done.
  injection H as H. destruct (n_ext ne) as [| | | |attrs nss| |]; try done.
  destruct (find_first _ _) as [[k a']|] eqn:Hf; [|done]. cbn in H. injection H as ->.
  exists k, attrs, nss. split; [done|].
  assert (G : forall (p : Name * id -> bool) l x, find_first p l = Some x -> In x l).
  { intros p l x. induction l as [|y l IH]; [done|]. cbn. destruct (p y); [intros [= ->]; by left|]. auto. }
  apply G in Hf. apply elem_of_list_In. rewrite <- (wf_ord_attr E HE attrs). by apply elem_of_list_In.
Qed.
Lemma map_attr_type h e ne k a attrs ns na : Inv h -> h_nodes h !! e = Some ne -> n_ext ne = XElement attrs ns -> In (k, a) attrs ->
  h_nodes h !! a = Some na -> n_type na = NAttribute /\ n_name na = k /\ n_owner na = n_owner ne.
Proof.
  intros HI He Hx Hin Ha. destruct (inv_node h HI e ne He) as (Hex & _). unfold ext_ok in Hex. rewrite Hx in Hex.
  destruct Hex as (_ & _ & H3 & _). destruct (H3 k a Hin) as (s & Hs & H1 & H2 & H4). rewrite (info_some _ _ _ Ha) in Hs. by injection Hs as <-.
Qed.
Lemma t_remove_found (o : op) h h0 e (f : heap -> res (option id)) ne : inserts o = None -> h_nodes h !! e = Some ne ->
  (forall a, f h = Ok (Some a) -> exists k attrs ns, n_ext ne = XElement attrs ns /\ In (k, a) attrs) ->
  triple (oplab h0 o) h (do? a := lift f in match a with None => ret tt | Some a => do? _ := remove_attribute_node e a in ret tt end)
    (fun _ _ => True).
Proof.
  intros Ho He Hf. apply triple_inv. intros HI. apply triple_read. intros [a|] Ha; [|by apply triple_ret].
  destruct (Hf a Ha) as (k & attrs & ns & Hx & Hin).
  tbind (fun r (_ : heap) => r = a); [|intros; by apply triple_ret]. apply t_remove_attribute_node; [done|].
  intros na Hna. cbn. left. by destruct (map_attr_type h e ne k a attrs ns na HI He Hx Hin Hna).
Qed.

(** ** The parser *)
Definition preturned {A} (r : pres A) : Prop := match r with POk _ | PErr _ => True | _ => False end.
Definition ptriple {A} (L : lab -> Prop) (h : heap) (m : PM A) (Q : A -> heap -> Prop) : Prop :=
  Inv h -> forall h' r, m h = (h', r) -> preturned r -> isteps L h h' /\ forall a, r = POk a -> Q a h'.
Lemma ptriple_bind {A B} L h (m : PM A) (k : A -> PM B) Q R :
  ptriple L h m R -> (forall a h1, isteps L h h1 -> R a h1 -> ptriple L h1 (k a) Q) -> ptriple L h (pbind m k) Q.
Proof.
  intros Hm Hk HI h' r H Hr. unfold pbind in H. destruct (m h) as [h1 [a|e|p|]] eqn:E.
  - destruct (Hm HI _ _ E I) as [Hs HR]. specialize (HR a eq_refl).
    destruct (Hk a h1 Hs HR (isteps_inv _ _ _ Hs HI) _ _ H Hr) as [Hs2 HQ]. split; [by eapply isteps_app|done].
  - injection H as <- <-. destruct (Hm HI _ _ E I) as [Hs _]. split; [done|]. by intros a [=].
  - by injection H as <- <-.
  - by injection H as <- <-.
Qed.
Lemma ptriple_ret {A} L h (a : A) (Q : A -> heap -> Prop) : Q a h -> ptriple L h (pret a) Q.
Proof. intros HQ _ h' r [= <- <-] _. split; [apply isteps_nil|]. by intros ? [= <-]. Qed.
Lemma ptriple_fail {A} L h e (Q : A -> heap -> Prop) : ptriple L h (pfail e) Q.
Proof. intros _ h' r [= <- <-] _. split; [apply isteps_nil|]. done. Qed.
Lemma ptriple_dom {A} L h (m : M A) Q : triple L h m Q -> ptriple L h (pdom m) Q.
Proof.
  intros Hm HI h' r H Hr. unfold pdom in H. destruct (m h) as [h1 [a|e|p|]] eqn:E; injection H as <- <-; try done.
  - destruct (Hm HI _ _ E I) as [Hs HR]. split; [done|]. intros b [= <-]. auto.
  - destruct (Hm HI _ _ E I) as [Hs _]. split; [done|]. by intros b [=].
Qed.
Lemma ptriple_unwrap {A} L h (m : M A) Q : triple L h m Q -> ptriple L h (pdom_unwrap m) Q.
Proof. intros Hm. by apply ptriple_dom, triple_err_to_panic. Qed.
Lemma ptriple_decode L h o (Q : str -> heap -> Prop) : (forall s, Q s h) -> ptriple L h (pdecode o) Q.
Proof. intros HQ. destruct o; [by apply ptriple_ret|apply ptriple_fail]. Qed.
Lemma ptriple_punwrap {A} L h (o : option A) (Q : A -> heap -> Prop) : (forall s, Q s h) -> ptriple L h (punwrap o) Q.
Proof. intros HQ. destruct o; [by apply ptriple_ret|]. by intros _ h' r [= <- <-]. Qed.
Lemma ptriple_weaken {A} L h (m : PM A) (Q R : A -> heap -> Prop) :
  ptriple L h m Q -> (forall a h', isteps L h h' -> Inv h' -> Q a h' -> R a h') -> ptriple L h m R.
Proof.
  intros Hm HQ HI h' r H Hr. destruct (Hm HI _ _ H Hr) as [Hs HR]. split; [done|]. intros a Ha.
  apply HQ; [done|by eapply isteps_inv|auto].
Qed.
Lemma ptriple_inv {A} L h (m : PM A) Q : (Inv h -> ptriple L h m Q) -> ptriple L h m Q.
Proof. intros H HI. by apply H. Qed.
Ltac pbind R := apply (ptriple_bind _ _ _ _ _ R).

Section parse.
  Context (E : env) (doc : id).
  Lemma p_attributes el : forall l h, is_doc h doc -> ptriple Lb h (handle_attributes E doc el l) (fun _ _ => True).
  Proof.
    induction l as [|[name value| |] l IH]; intros h Hd; cbn [handle_attributes].
    - by apply ptriple_ret.
    - apply ptriple_inv. intros HI. pbind (fun (_ : id) h1 => is_doc h1 doc).
      { apply ptriple_dom. eapply triple_weaken; [by apply t_create_attribute_with|]. intros a h1 Hs _ _.
        eapply isteps_doc; [apply Lb_nodrop|done|done|done]. }
      intros a h1 _ Hd1. apply ptriple_inv. intros HI1. pbind (fun (_ : id) h2 => is_doc h2 doc).
      { apply ptriple_dom. eapply triple_weaken; [apply t_set_attribute_node|]. intros a' h2 Hs _ _.
        eapply isteps_doc; [apply Lb_nodrop|exact HI1|done|done]. }
      intros _ h2 _ Hd2. by apply IH.
    - by intros _ h' r [= <- <-].
    - apply ptriple_fail.
  Qed.
  Lemma t_create_element h name : is_doc h doc -> triple Lb h (create_element doc name) (fun e h' => exists nm, created h (new_element doc nm) e h').
  Proof.
    intros Hd. apply triple_inv. intros HI. unfold create_element. apply triple_handle, triple_read. intros nm Hnm.
    eapply triple_weaken; [apply t_element; [by apply doc_wdoc|by eapply parsed_from_str]|]. eauto.
  Qed.
  Lemma p_start h parent name attrs : is_doc h doc -> ptriple Lb h (handle_start E doc parent name attrs) (fun _ _ => True).
  Proof.
    intros Hd. apply ptriple_inv. intros HI. unfold handle_start. pbind (fun (_ : str) h1 => h1 = h); [by apply ptriple_decode|].
    intros nm h1 _ ->. pbind (fun e h' => exists nm, created h (new_element doc nm) e h'); [by apply ptriple_unwrap, t_create_element|].
    intros e h1 Hs1 (nm' & Hcr). pbind (fun a (_ : heap) => a = e).
    { apply ptriple_dom, t_insert_leaf. by eapply created_leaf. }
    intros a h2 Hs2 ->. pbind (fun (_ : unit) (_ : heap) => True); [|intros; by apply ptriple_ret].
    apply p_attributes. eapply isteps_doc; [apply Lb_nodrop|exact HI|by eapply isteps_app|done].
  Qed.
  Lemma p_leaf h parent (m : PM id) n : Inv h -> ptriple Lb h m (created h n) -> n_children n = [] ->
    ptriple Lb h (dop? x := m in pdom (append_child parent x)) (fun _ _ => True).
  Proof.
    intros HI Hm Hn. pbind (created h n); [done|]. intros x h1 _ Hcr. eapply ptriple_weaken; [apply ptriple_dom, t_insert_leaf; by eapply created_leaf|done].
  Qed.
  Lemma p_comment h parent t : is_doc h doc -> ptriple Lb h (handle_comment doc parent t) (fun _ _ => True).
  Proof.
    intros Hd. apply ptriple_inv. intros HI. unfold handle_comment. pbind (fun (_ : str) h1 => h1 = h); [by apply ptriple_decode|].
    intros s h1 _ ->. eapply p_leaf; [done|apply ptriple_dom, triple_handle, t_comment; by apply doc_wdoc|done].
  Qed.
  Lemma p_text h parent t : is_doc h doc -> ptriple Lb h (handle_text doc parent t) (fun _ _ => True).
  Proof.
    intros Hd. apply ptriple_inv. intros HI. unfold handle_text. pbind (fun (_ : str) h1 => h1 = h); [by apply ptriple_decode|].
    intros s h1 _ ->. eapply p_leaf; [done|apply ptriple_dom, triple_handle, t_text; by apply doc_wdoc|done].
  Qed.
  Lemma p_cdata h parent t : is_doc h doc -> ptriple Lb h (handle_cdata doc parent t) (fun _ _ => True).
  Proof.
    intros Hd. apply ptriple_inv. intros HI. unfold handle_cdata. pbind (fun (_ : str) h1 => h1 = h); [by apply ptriple_decode|].
    intros s h1 _ ->. eapply p_leaf; [done|apply ptriple_unwrap, triple_handle, t_cdata; by apply doc_wdoc|done].
  Qed.
  Lemma t_create_pi h t s : is_doc h doc -> triple Lb h (create_processing_instruction doc t s)
    (fun i h' => exists nm, created h (new_processing_instruction doc nm s) i h').
  Proof.
    intros Hd. apply triple_inv. intros HI. unfold create_processing_instruction. apply triple_handle. destruct (str_eqb _ _) eqn:Hxt; [apply triple_fail|].
    apply triple_read. intros nm Hnm. eapply triple_weaken; [apply t_pi; [by apply doc_wdoc|by eapply pi_named]|]. eauto.
  Qed.
  Lemma p_pi h parent t : is_doc h doc -> ptriple Lb h (handle_pi doc parent t) (fun _ _ => True).
  Proof.
    intros Hd. apply ptriple_inv. intros HI. unfold handle_pi. pbind (fun (_ : str) h1 => h1 = h); [by apply ptriple_decode|].
    intros s h1 _ ->. destruct (pi_parts s) as [target d]. pbind (fun i h' => exists nm, created h (new_processing_instruction doc nm d) i h').
    { by apply ptriple_unwrap, t_create_pi. }
    intros x h1 _ (nm & Hcr). eapply ptriple_weaken; [apply ptriple_dom, t_insert_leaf; by eapply created_leaf|done].
  Qed.
  Lemma t_set_decl (L : lab -> Prop) h d x : (forall x y z, L (LExt x y z)) -> triple L h (set_xml_declaration d x) (fun _ _ => True).
  Proof.
    intros HL. unfold set_xml_declaration. apply triple_inv. intros HI. apply triple_node. intros n Hn.
    destruct (n_ext n) as [| |dc dt m o| | | |] eqn:Hx; try apply triple_fail.
    eapply triple_ext; [done|done|rewrite Hx; constructor| |done]. intros _.
    destruct (inv_node h HI d n Hn) as (Hex & _). unfold ext_ok in Hex |- *. rewrite Hx in Hex. done.
  Qed.
  Lemma p_decl h v e s : ptriple Lb h (handle_decl doc v e s) (fun _ _ => True).
  Proof.
    unfold handle_decl. pbind (fun (_ : option xml_decl) h1 => h1 = h); [by apply ptriple_dom, triple_lift|].
    intros [d|] h1 _ ->; [apply ptriple_fail|]. pbind (fun (_ : str * option str * option bool) (_ : heap) => True).
    { unfold make_decl. pbind (fun (_ : str) (_ : heap) => True); [by apply ptriple_punwrap|]. intros v1 h1 _ _.
      pbind (fun (_ : str) (_ : heap) => True).
      { intros _ h' r H Hr. destruct (unquote v1); injection H as <- <-; try done; (split; [apply isteps_nil|done]). }
      intros v2 h2 _ _. pbind (fun (_ : option str) (_ : heap) => True).
      { destruct e as [o|]; [|by apply ptriple_ret]. pbind (fun (_ : str) (_ : heap) => True); [by apply ptriple_punwrap|]. intros; by apply ptriple_ret. }
      intros e1 h3 _ _. pbind (fun (_ : option bool) (_ : heap) => True).
      { destruct s as [o|]; [|by apply ptriple_ret]. pbind (fun (_ : str) (_ : heap) => True); [by apply ptriple_punwrap|]. intros; by apply ptriple_ret. }
      intros; by apply ptriple_ret. }
    intros r h1 _ _. pbind (fun (_ : xml_version) (_ : heap) => True); [by apply ptriple_punwrap|]. intros v1 h2 _ _.
    pbind (fun (_ : xml_decl) (_ : heap) => True); [by apply ptriple_dom, triple_lift|]. intros d h3 _ _.
    by apply ptriple_dom, t_set_decl.
  Qed.

  Lemma p_step {A B} (m : PM A) h (h' : heap) (r : pres B) (F : heap -> heap * pres B) :
    ptriple Lb h m (fun _ _ => True) -> Inv h -> is_doc h doc ->
    (forall h1, Inv h1 -> is_doc h1 doc -> forall h' r, F h1 = (h', r) -> preturned r -> isteps Lb h1 h') ->
    match m h with
    | (h1, POk _) => F h1
    | (h1, PErr e) => (h1, PErr e)
    | (h1, PPanic p) => (h1, PPanic p)
    | (h1, PDiverge) => (h1, PDiverge)
    end = (h', r) -> preturned r -> isteps Lb h h'.
  Proof.
    intros Hm HI Hd HF H Hr. destruct (m h) as [h1 [a|e|p|]] eqn:Em.
    - destruct (Hm HI _ _ Em Logic.I) as [Hs _]. eapply isteps_app; [exact Hs|]. eapply HF; [by eapply isteps_inv| |exact H|done].
      eapply isteps_doc; [apply Lb_nodrop|exact HI|exact Hs|done].
    - injection H as <- <-. by destruct (Hm HI _ _ Em Logic.I) as [Hs _].
    - by injection H as <- <-.
    - by injection H as <- <-.
  Qed.

  Lemma p_element : forall k parent evs h h' rest r, Inv h -> is_doc h doc ->
    element k E doc parent evs h = (h', rest, r) -> preturned r -> isteps Lb h h'.
  Proof.
    induction k as [|k IH]; intros parent evs h h' rest r HI Hd H Hr; [by injection H as <- <- <-|].
    assert (HS : forall A (m : PM A) rest0, ptriple Lb h m (fun _ _ => True) ->
      match m h with
      | (h1, POk _) => element k E doc parent rest0 h1
      | (h1, PErr e) => (h1, rest0, PErr e)
      | (h1, PPanic p) => (h1, rest0, PPanic p)
      | (h1, PDiverge) => (h1, rest0, PDiverge)
      end = (h', rest, r) -> isteps Lb h h').
    { intros A m rest0 Hm H0. destruct (m h) as [h1 [a|e|p|]] eqn:Em.
      - destruct (Hm HI _ _ Em Logic.I) as [Hs _]. eapply isteps_app; [exact Hs|]. eapply IH; [by eapply isteps_inv| |exact H0|done].
        eapply isteps_doc; [apply Lb_nodrop|exact HI|exact Hs|done].
      - injection H0 as <- <- <-. by destruct (Hm HI _ _ Em Logic.I) as [Hs _].
      - by injection H0 as <- <- <-.
      - by injection H0 as <- <- <-. }
    cbn [element] in H. destruct evs as [|ev evs]; [injection H as <- <- <-; apply isteps_nil|].
    destruct ev as [v e s|name attrs|name attrs| |t|t|t|t| |];
      try (injection H as <- <- <-; apply isteps_nil).
    - destruct (handle_start E doc parent name attrs h) as [h1 [el|e|p|]] eqn:Em.
      + destruct (p_start h parent name attrs Hd HI _ _ Em Logic.I) as [Hs1 _].
        assert (HI1 : Inv h1) by (by eapply isteps_inv).
        assert (Hd1 : is_doc h1 doc) by (eapply isteps_doc; [apply Lb_nodrop|exact HI|exact Hs1|done]).
        destruct (element k E doc el evs h1) as [[h2 rest2] [x|e|p|]] eqn:Ee.
        * pose proof (IH _ _ _ _ _ _ HI1 Hd1 Ee Logic.I) as Hs2.
          eapply isteps_app; [exact Hs1|]. eapply isteps_app; [exact Hs2|]. eapply IH; [by eapply isteps_inv| |exact H|done].
          eapply isteps_doc; [apply Lb_nodrop|exact HI1|exact Hs2|done].
        * injection H as <- <- <-. eapply isteps_app; [exact Hs1|]. by eapply (IH _ _ _ _ _ _ HI1 Hd1 Ee).
        * by injection H as <- <- <-.
        * by injection H as <- <- <-.
      + injection H as <- <- <-. by destruct (p_start h parent name attrs Hd HI _ _ Em Logic.I) as [Hs _].
      + by injection H as <- <- <-.
      + by injection H as <- <- <-.
    - eapply HS; [|exact H]. by apply p_start.
    - eapply HS; [|exact H]. by apply p_comment.
    - eapply HS; [|exact H]. by apply p_pi.
    - eapply HS; [|exact H]. by apply p_text.
    - eapply HS; [|exact H]. by apply p_cdata.
  Qed.

  Lemma p_document : forall k evs h h' r, Inv h -> is_doc h doc ->
    document_loop k E doc evs h = (h', r) -> preturned r -> isteps Lb h h'.
  Proof.
    induction k as [|k IH]; intros evs h h' r HI Hd H Hr; [by injection H as <- <-|].
    cbn [document_loop] in H. destruct evs as [|ev evs]; [injection H as <- <-; apply isteps_nil|].
    destruct ev as [v e s|name attrs|name attrs| |t|t|t|t| |];
      try (injection H as <- <-; apply isteps_nil).
    - eapply (p_step (handle_decl doc v e s)); [apply p_decl|done|done| |exact H|done]. intros h1 HI1 Hd1 h2 r2 H2 Hr2. by eapply IH.
    - destruct (handle_start E doc doc name attrs h) as [h1 [el|e|p|]] eqn:Em.
      + destruct (p_start h doc name attrs Hd HI _ _ Em Logic.I) as [Hs1 _].
        assert (HI1 : Inv h1) by (by eapply isteps_inv).
        assert (Hd1 : is_doc h1 doc) by (eapply isteps_doc; [apply Lb_nodrop|exact HI|exact Hs1|done]).
        destruct (element (S (length evs)) E doc el evs h1) as [[h2 rest2] [x|e|p|]] eqn:Ee.
        * pose proof (p_element _ _ _ _ _ _ _ HI1 Hd1 Ee Logic.I) as Hs2.
          eapply isteps_app; [exact Hs1|]. eapply isteps_app; [exact Hs2|]. eapply IH; [by eapply isteps_inv| |exact H|done].
          eapply isteps_doc; [apply Lb_nodrop|exact HI1|exact Hs2|done].
        * pose proof (p_element _ _ _ _ _ _ _ HI1 Hd1 Ee Logic.I) as Hs2.
          eapply isteps_app; [exact Hs1|]. eapply isteps_app; [exact Hs2|]. eapply IH; [by eapply isteps_inv| |exact H|done].
          eapply isteps_doc; [apply Lb_nodrop|exact HI1|exact Hs2|done].
        * by injection H as <- <-.
        * by injection H as <- <-.
      + injection H as <- <-. by destruct (p_start h doc name attrs Hd HI _ _ Em Logic.I) as [Hs _].
      + by injection H as <- <-.
      + by injection H as <- <-.
    - eapply (p_step (handle_start E doc doc name attrs)); [by apply p_start|done|done| |exact H|done]. intros h1 HI1 Hd1 h2 r2 H2 Hr2. by eapply IH.
    - by eapply IH.
    - eapply (p_step (handle_comment doc doc t)); [by apply p_comment|done|done| |exact H|done]. intros h1 HI1 Hd1 h2 r2 H2 Hr2. by eapply IH.
    - eapply (p_step (handle_pi doc doc t)); [by apply p_pi|done|done| |exact H|done]. intros h1 HI1 Hd1 h2 r2 H2 Hr2. by eapply IH.
  Qed.
End parse.

Lemma read_events_steps E evs h h' r : Inv h -> read_events E evs h = (h', r) -> preturned r -> isteps Lb h h'.
Proof.
  intros HI H Hr. unfold read_events in H.
  assert (Hc : ptriple Lb h (pdom_unwrap (create_document None None None)) (fun d h' => is_doc h' d)).
  { apply ptriple_unwrap, t_create_document. done. }
  destruct (pdom_unwrap (create_document None None None) h) as [h1 [d|e|p|]] eqn:Em.
  - destruct (Hc HI _ _ Em Logic.I) as [Hs Hd]. eapply isteps_app; [exact Hs|].
    eapply p_document; [by eapply isteps_inv|by apply (Hd d)|exact H|done].
  - injection H as <- <-. by destruct (Hc HI _ _ Em Logic.I) as [Hs _].
  - by injection H as <- <-.
  - by injection H as <- <-.
Qed.

(** ** Every call *)
Lemma triple_true {A} L h (m : M A) Q : triple L h m Q -> triple L h m (fun _ _ => True).
Proof. intros Hm. by eapply triple_weaken. Qed.
Lemma triple_out {A} L h (f : A -> option id) (m : M A) : triple L h m (fun _ _ => True) -> triple L h (out f m) (fun _ _ => True).
Proof. intros Hm. unfold out. tbind (fun (_ : A) (_ : heap) => True); [done|]. intros a h1 _ _. by apply triple_ret. Qed.
Lemma has_type h i (p : node_type -> bool) : match h_nodes h !! i with Some n => p (n_type n) | None => false end = true ->
  exists n, h_nodes h !! i = Some n /\ p (n_type n) = true.
Proof. destruct (h_nodes h !! i) as [n|]; [eauto|done]. Qed.
Lemma has_doc h d : match h_nodes h !! d with Some n => type_eqb NDocument (n_type n) | None => false end = true -> is_doc h d.
Proof. intros (n & Hn & Ht)%has_type. apply bool_decide_eq_true in Ht. exists (static n). split; [by apply info_some|done]. Qed.

Lemma exec_triple E o h : wf_env E -> typed_op h o = true -> triple (oplab h o) h (exec E o) (fun _ _ => True).
Proof.
  intros HE Ht. apply triple_inv. intros HI.
  assert (HL : forall {A} (m : M A) Q, inserts o = None -> triple Lb h m Q -> triple (oplab h o) h m Q) by (intros; by apply triple_Lb).
  destruct o; cbn [exec typed_op] in *;
    try (apply has_doc in Ht; pose proof (doc_wdoc _ _ HI Ht) as Hw).
  - apply triple_out, HL; [done|]. eapply triple_true, t_create_document. intros t' ->. apply has_type in Ht as (n & Hn & Htt). apply bool_decide_eq_true in Htt.
    exists (static n). split; [by apply info_some|done].
  - apply triple_out, HL; [done|]. unfold create_document_type. apply triple_read. intros nm Hnm. eapply triple_true, triple_new; try done. by eapply parsed_from_str.
  - intros _ h' r H Hr. unfold read_xml_op in H.
    destruct (read_events E evs h) as [h1 [d|e|p|]] eqn:Er.
    + injection H as <- <-. split; [|done]. eapply isteps_weaken; [intros l; by apply Lb_oplab|]. by eapply read_events_steps.
    + assert (h' = h1) as -> by (destruct e; by injection H as <- <-). split; [|done].
      eapply isteps_weaken; [intros l; by apply Lb_oplab|]. by eapply read_events_steps.
    + by injection H as <- <-.
    + by injection H as <- <-.
  - apply triple_out, HL; [done|]. by eapply triple_true, t_create_element.
  - apply triple_out, HL; [done|]. unfold create_element_ns. apply triple_handle, triple_read. intros nm Hnm. eapply triple_true, t_element; [done|by eapply parsed_new_ns].
  - apply triple_out, HL; [done|]. unfold create_attribute. apply triple_handle, triple_read. intros nm Hnm. eapply triple_true, t_attr; [done|by eapply parsed_from_str].
  - apply triple_out, HL; [done|]. unfold create_attribute_with. apply triple_handle, triple_read. intros nm Hnm. eapply triple_true, t_attr; [done|by eapply parsed_from_str].
  - apply triple_out, HL; [done|]. unfold create_attribute_ns. apply triple_handle, triple_read. intros nm Hnm. eapply triple_true, t_attr; [done|by eapply parsed_new_ns].
  - apply triple_out, HL; [done|]. by eapply triple_true, triple_handle, t_text.
  - apply triple_out, HL; [done|]. by eapply triple_true, triple_handle, t_cdata.
  - apply triple_out, HL; [done|]. by eapply triple_true, triple_handle, t_comment.
  - apply triple_out, HL; [done|]. by eapply triple_true, t_create_pi.
  - apply triple_out, HL; [done|]. by eapply triple_true, triple_handle, t_fragment.
  - apply triple_out, HL; [done|]. unfold create_entity_reference. apply triple_handle, triple_read. intros nm Hnm. eapply triple_true, t_ref; [done|by eapply parsed_from_str].
  - apply triple_out, HL; [done|]. unfold create_notation. apply triple_handle, triple_read. intros nm Hnm. eapply triple_true, t_notation; [done|by eapply parsed_from_str].
  - apply triple_out, HL; [done|]. unfold create_entity. apply triple_handle, triple_read. intros nm Hnm. eapply triple_true, t_entity; [done|by eapply parsed_from_str].
  - apply triple_out, HL; [done|]. unfold create_internal_entity. apply triple_handle, triple_read. intros nm Hnm. eapply triple_true, t_ientity; [done|by eapply parsed_from_str].
  - eapply triple_out, triple_true, t_insert; done.
  - eapply triple_out, triple_true, t_insert; done.
  - eapply triple_out, triple_true, t_replace_child.
  - eapply triple_out, triple_true, t_remove_child. intros np Hp. cbn. eauto.
  - eapply triple_out, triple_true. intros _ h' r H Hr. eapply t_clone_rec; [| |done|exact H|done].
    + by intros l [=].
    + intros n Hn. split; [|done]. destruct Hn as [Hn| ->]; [by left|]. right. right. eauto.
  - eapply triple_out, triple_true, t_normalize.
  - eapply triple_out, triple_true, t_set_value. done.
  - eapply triple_out, triple_true, t_set_value. done.
  - eapply triple_out, triple_true, t_append_data. done.
  - eapply triple_out, triple_true, t_insert_data. done.
  - eapply triple_out, triple_true, t_delete_data. done.
  - eapply triple_out, triple_true, t_replace_data. done.
  - eapply triple_out, triple_true, t_split.
  - apply has_type in Ht as (n & Hn & Htt). apply bool_decide_eq_true in Htt. by eapply triple_out, triple_true, t_attr_set_value.
  - apply has_type in Ht as (n & Hn & Htt). apply bool_decide_eq_true in Htt. by eapply triple_out, triple_true, t_attr_clear.
  - apply has_type in Ht as (n & Hn & Htt). apply bool_decide_eq_true in Htt.
    apply triple_out, HL; [done|]. unfold set_attribute. apply triple_read. intros nm Hnm. eapply triple_true, t_set_new_attribute; [|by eapply parsed_from_str].
    exists (static n). split; [by apply info_some|done].
  - apply has_type in Ht as (n & Hn & Htt). apply bool_decide_eq_true in Htt.
    apply triple_out, HL; [done|]. unfold set_attribute_ns. apply triple_read. intros nm Hnm. eapply triple_true, t_set_new_attribute; [|by eapply parsed_new_ns].
    exists (static n). split; [by apply info_some|done].
  - apply triple_out, HL; [done|]. eapply triple_true, t_set_attribute_node.
  - apply has_type in Ht as (n & Hn & Htt). apply triple_out. eapply t_remove_found; [done|done|]. intros a Ha. by eapply get_attribute_node_in.
  - apply has_type in Ht as (n & Hn & Htt). apply triple_out. eapply t_remove_found; [done|done|]. intros a Ha. by eapply get_attribute_node_ns_in.
  - eapply triple_out, triple_true, t_remove_attribute_node; [done|]. intros na Hna. cbn. eauto 6.
  - apply triple_out, HL; [done|]. by eapply triple_true, t_set_decl.
  - apply triple_out. intros _ h' r H Hr. unfold drop_nodes in H. destruct (bool_decide_reflect (can_drop h l)) as [Hc|Hc]; [|by injection H as <- <-].
    injection H as <- <-. split; [|intros a _; exact Logic.I]. eapply isteps_one; [|by apply pr_drop]. done.
Qed.

Lemma step_isteps h o h' : Inv h -> step h o h' -> isteps (oplab h o) h h'.
Proof.
  intros HI (Ht & E & r & HE & H & Hr). by destruct (exec_triple E o h HE Ht HI h' r H) as [Hs _]; [destruct r|].
Qed.
Theorem reachable_inv h : reachable h -> Inv h.
Proof. intros H. induction H as [|h o h' _ IH Hs]; [apply inv_empty|]. by eapply isteps_inv; [eapply step_isteps|]. Qed.
