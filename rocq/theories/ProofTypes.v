(** * ProofTypes: which types of nodes exist after a call *)
From Coq Require Import Lia.
From Verif Require Import SpecTypes ProofInv ProofSteps.

(** A property of heaps that holds after allocating nodes of types in [G], and after changing a node without changing its type. *)
Section types.
  Context (G : node_type -> Prop) (good : heap -> Prop).
  Context (good_get : forall h i n, good h -> h_nodes h !! i = Some n -> G (n_type n)).
  Context (good_upd : forall h i n n', good h -> h_nodes h !! i = Some n -> n_type n' = n_type n -> good (mkHeap (<[i := n']> (h_nodes h)) (h_next h))).
  Context (good_alloc : forall h n, good h -> G (n_type n) -> good (mkHeap (<[h_next h := n]> (h_nodes h)) (S (h_next h)))).
  (** From good heaps to good heaps, with results in [P]. *)
  Definition kt {A} (P : A -> Prop) (m : M A) : Prop := forall h h' r, good h -> m h = (h', r) -> good h' /\ forall a, r = Ok a -> P a.
  Definition any {A} (_ : A) : Prop := True.
  Definition gn (n : node) : Prop := G (n_type n).
  Lemma kt_bind {A C} (P : A -> Prop) (Q : C -> Prop) (m : M A) (k : A -> M C) : kt P m -> (forall a, P a -> kt Q (k a)) -> kt Q (bind m k).
  Proof.
    intros Hm Hk h h' r Hg. unfold bind. destruct (m h) as [h1 x] eqn:H1. destruct (Hm _ _ _ Hg H1) as [Hg1 Hp]. destruct x as [a|e|p|]; [|by intros [= <- <-]..].
    apply (Hk a); [by apply Hp|done].
  Qed.
  Lemma kt_any {A} (P : A -> Prop) (m : M A) : kt P m -> kt any m.
  Proof. intros Hm h h' r Hg H. by destruct (Hm _ _ _ Hg H) as [? _]. Qed.
  Lemma kt_lift {A} (f : heap -> res A) : kt any (lift f). Proof. by intros h h' r Hg [= <- <-]. Qed.
  Lemma kt_ret {A} (P : A -> Prop) (a : A) : P a -> kt P (ret a). Proof. intros Ha h h' r Hg [= <- <-]. split; [done|]. by intros ? [= <-]. Qed.
  Lemma kt_fail {A} (P : A -> Prop) e : kt P (fail e). Proof. by intros h h' r Hg [= <- <-]. Qed.
  Lemma kt_panic {A} (P : A -> Prop) p : kt P (panic_ p). Proof. by intros h h' r Hg [= <- <-]. Qed.
  Lemma kt_getM i : kt gn (getM i).
  Proof. intros h h' r Hg [= <- <-]. split; [done|]. intros n Hn%get_node_ok. by eapply good_get. Qed.
  Lemma kt_modifyM i f : (forall n, n_type (f n) = n_type n) -> kt any (modifyM i f).
  Proof.
    intros Hf h h' r Hg. unfold modifyM. destruct (h_nodes h !! i) as [n|] eqn:Hn; [|by intros [= <- <-]]. intros [= <- <-]. split; [|done]. by eapply good_upd.
  Qed.
  Lemma kt_allocM n : gn n -> kt any (allocM n).
  Proof. intros Hn h h' r Hg [= <- <-]. split; [|done]. by apply good_alloc. Qed.
  Lemma kt_err {A} (P : A -> Prop) p (m : M A) : kt P m -> kt P (err_to_panic p m).
  Proof. intros Hm h h' r Hg. unfold err_to_panic. destruct (m h) as [h1 x] eqn:H1. destruct (Hm _ _ _ Hg H1) as [Hg1 Hp]. destruct x; by intros [= <- <-]. Qed.
  Lemma any_i {A} (a : A) : any a. Proof. done. Qed.
  Hint Resolve any_i kt_lift kt_ret kt_fail kt_panic kt_getM kt_allocM : kt.
  Hint Extern 1 (kt any (modifyM _ _)) => apply kt_modifyM; intros; reflexivity : kt.
  Ltac kts := repeat first [ solve [auto with kt] | apply kt_err | eapply kt_any; apply kt_getM
    | match goal with |- kt _ (bind (getM _) _) => eapply kt_bind; [apply kt_getM|intros ? ?] end
    | match goal with |- kt _ (bind _ _) => apply (kt_bind any); [|intros ? _] end
    | progress cbv zeta
    | match goal with |- kt _ (match ?x with _ => _ end) => destruct x eqn:? end | match goal with |- kt _ (if ?x then _ else _) => destruct x eqn:? end ].
  Lemma kt_with {A} (P : A -> Prop) d (m : M A) : kt P m -> kt P (with_handle d m). Proof. intros Hm. unfold with_handle. kts. Qed.
  Lemma kt_remove_child s o : kt any (remove_child s o). Proof. unfold remove_child. kts. Qed.
  Hint Resolve kt_with kt_remove_child : kt.
  Lemma kt_insert_or_append s c p : kt any (insert_or_append s c p). Proof. unfold insert_or_append. kts. Qed.
  Hint Resolve kt_insert_or_append : kt.
  Lemma kt_insert_all s l : forall p k, kt any (insert_all s l p k). Proof. induction l; intros; cbn [insert_all]; kts. Qed.
  Hint Resolve kt_insert_all : kt.
  Lemma kt_insert_before s c r : kt any (insert_before s c r). Proof. unfold insert_before. kts. Qed.
  Hint Resolve kt_insert_before : kt.
  Lemma kt_append_child s c : kt any (append_child s c). Proof. apply kt_insert_before. Qed.
  Hint Resolve kt_append_child : kt.
  Lemma kt_replace_child s c o : kt any (replace_child s c o). Proof. unfold replace_child. kts. Qed.
  Lemma kt_insert_mapping s p u : kt any (insert_mapping s p u). Proof. unfold insert_mapping. kts. Qed.
  Hint Resolve kt_insert_mapping : kt.
  Lemma kt_set_attribute_node E s a : kt any (set_attribute_node E s a). Proof. unfold set_attribute_node. kts. Qed.
  Hint Resolve kt_set_attribute_node : kt.
  Lemma kt_new_attribute d nm v : G NAttribute -> (v <> None -> G NText) -> kt gn (new_attribute d nm v).
  Proof.
    intros Ha Ht. unfold new_attribute. apply (kt_bind any).
    - destruct v as [v|]; kts. apply kt_allocM. by apply Ht.
    - intros l _. by apply kt_ret.
  Qed.
  Lemma kt_alloc_attribute d nm v : G NAttribute -> (v <> None -> G NText) -> kt any (bind (new_attribute d nm v) allocM).
  Proof. intros Ha Ht. eapply kt_bind; [by apply kt_new_attribute|]. intros n Hn. by apply kt_allocM. Qed.
  Lemma kt_set_new_attribute E s nm v : G NAttribute -> G NText -> kt any (set_new_attribute E s nm v).
  Proof.
    intros Ha Ht. unfold set_new_attribute. eapply kt_bind; [apply kt_getM|]. intros n Hn. apply (kt_bind any); [kts|]. intros d _. eapply kt_bind; [by apply kt_new_attribute|]. intros a Hna. kts.
  Qed.
  Lemma kt_clone deep : forall k i, kt any (clone_rec k deep i).
  Proof.
    induction k as [|k IH]; intros i; cbn [clone_rec]; [by intros h h' r Hg [= <- <-]|]. eapply kt_bind; [apply kt_getM|]. intros n Hn. apply (kt_bind any); [|intros l _; by apply kt_allocM].
    destruct deep; [|kts]. induction (n_children n) as [|c l IHl]; cbn [mapM_]; kts.
  Qed.
  Lemma kt_iter {A} (f : A -> M unit) l : (forall x, kt any (f x)) -> kt any (iterM f l).
  Proof. intros Hf. induction l; cbn [iterM]; kts. Qed.
  Lemma kt_append_data i v : kt any (append_data i v). Proof. unfold append_data. kts. Qed.
  Hint Resolve kt_append_data : kt.
  Lemma kt_normalize i : kt any (normalize i).
  Proof. unfold normalize. eapply kt_bind; [apply kt_getM|]. intros n Hn. apply kt_iter. intros c. unfold normalize_step. kts. Qed.
  Lemma kt_replace_data E i o c s : kt any (replace_data E i o c s). Proof. unfold replace_data. kts. Qed.
  Hint Resolve kt_replace_data : kt.
  Lemma kt_delete_data E i o c : kt any (delete_data E i o c). Proof. unfold delete_data. kts. Qed.
  Hint Resolve kt_delete_data : kt.
  Lemma kt_insert_data E i o s : kt any (insert_data E i o s). Proof. unfold insert_data. kts. Qed.
  Lemma kt_split E i o : kt any (DomOps.split E i o).
  Proof.
    unfold DomOps.split. eapply kt_bind; [apply kt_getM|]. intros n Hn. destruct (negb _); [kts|]. apply (kt_bind any); [kts|]. intros len _. apply (kt_bind any); [kts|]. intros d _.
    eapply kt_bind; [apply kt_getM|]. intros n2 Hn2. unfold gn in Hn2. eapply (kt_bind gn).
    - destruct (n_type n2); try apply kt_fail; (apply (kt_bind any); [kts|intros; by apply kt_ret]).
    - intros x Hx. kts.
  Qed.
  Lemma kt_set_decl i d : kt any (set_xml_declaration i d). Proof. unfold set_xml_declaration. kts. Qed.
  Hint Resolve kt_set_decl : kt.
  Lemma kt_attr_set i v : G NText -> kt any (attr_set_value i v). Proof. intros Ht. unfold attr_set_value, attr_unset_value. kts. Qed.
  Lemma kt_remove_attribute_node e a : kt any (remove_attribute_node e a). Proof. unfold remove_attribute_node. kts. Qed.
  Hint Resolve kt_remove_attribute_node : kt.
  Lemma kt_remove_attribute E e n : kt any (remove_attribute E e n). Proof. unfold remove_attribute. kts. Qed.
  Lemma kt_remove_attribute_ns E e u l : kt any (remove_attribute_ns E e u l). Proof. unfold remove_attribute_ns. kts. Qed.
  Lemma kt_create_element d nm : G NElement -> kt any (create_element d nm). Proof. intros Hg. unfold create_element. apply kt_with. kts. Qed.
  Lemma kt_create_element_ns d u q : G NElement -> kt any (create_element_ns d u q). Proof. intros Hg. unfold create_element_ns. apply kt_with. kts. Qed.
  Lemma kt_create_document u q t o : G NDocument -> (q <> None -> G NElement) -> kt any (create_document_with_options u q t o).
  Proof.
    intros Hd He. unfold create_document_with_options. apply (kt_bind any); [destruct t; kts|]. intros _ _. apply (kt_bind any); [by apply kt_allocM|]. intros d _.
    apply (kt_bind any). { destruct u, q; kts; [apply kt_create_element_ns|apply kt_create_element]; by apply He. }
    intros e _. kts.
  Qed.
  Lemma kt_create_attribute d n : G NAttribute -> kt any (create_attribute d n).
  Proof. intros Ha. unfold create_attribute. apply kt_with, (kt_bind any); [kts|]. intros nm _. by apply kt_alloc_attribute. Qed.
  Lemma kt_create_attribute_ns d u q : G NAttribute -> kt any (create_attribute_ns d u q).
  Proof. intros Ha. unfold create_attribute_ns. apply kt_with, (kt_bind any); [kts|]. intros nm _. by apply kt_alloc_attribute. Qed.
  Lemma kt_create_attribute_with d n v : G NAttribute -> G NText -> kt any (create_attribute_with d n v).
  Proof. intros Ha Ht. unfold create_attribute_with. apply kt_with, (kt_bind any); [kts|]. intros nm _. by apply kt_alloc_attribute. Qed.
  Lemma kt_out {A} (f : A -> option id) (m : M A) : kt any m -> kt any (out f m). Proof. intros Hm. unfold out. kts. Qed.

  (** *** The parser *)
  Definition pkt {A} (m : PM A) : Prop := forall h h' r, good h -> m h = (h', r) -> good h'.
  Lemma pkt_bind {A C} (m : PM A) (k : A -> PM C) : pkt m -> (forall a, pkt (k a)) -> pkt (pbind m k).
  Proof.
    intros Hm Hk h h' r Hg. unfold pbind. destruct (m h) as [h1 x] eqn:H1. pose proof (Hm _ _ _ Hg H1). destruct x; [|by intros [= <- _]..]. by apply Hk.
  Qed.
  Lemma pkt_dom {A} (m : M A) : kt any m -> pkt (pdom m).
  Proof. intros Hm h h' r Hg. unfold pdom. destruct (m h) as [h1 x] eqn:H1. destruct (Hm _ _ _ Hg H1) as [? _]. destruct x; by intros [= <- _]. Qed.
  Lemma pkt_unwrap {A} (m : M A) : kt any m -> pkt (pdom_unwrap m). Proof. intros. by apply pkt_dom, kt_err. Qed.
  Lemma pkt_ret {A} (a : A) : pkt (pret a). Proof. by intros h h' r Hg [= <- _]. Qed.
  Lemma pkt_fail {A} e : pkt (A := A) (pfail e). Proof. by intros h h' r Hg [= <- _]. Qed.
  Lemma pkt_decode o : pkt (pdecode o). Proof. destruct o; by intros h h' r Hg [= <- _]. Qed.
  Lemma pkt_punwrap {A} (o : option A) : pkt (punwrap o). Proof. destruct o; by intros h h' r Hg [= <- _]. Qed.
  Ltac pk := repeat first [ apply pkt_bind; [|intros ?] | apply pkt_dom; solve [kts] | apply pkt_unwrap; solve [kts] | apply pkt_decode | apply pkt_punwrap | apply pkt_ret | apply pkt_fail ].
  Section reader.
    Context (E : env) (doc : id) (GE : G NElement) (GA : G NAttribute) (GT : G NText) (GD : G NCData) (GC : G NComment) (GP : G NProcessingInstruction).
    Lemma pkt_attributes el l : pkt (handle_attributes E doc el l).
    Proof.
      induction l as [|[n v| |] l IH]; cbn [handle_attributes]; [pk| |by intros h h' r Hg [= <- _]|pk]. apply pkt_bind; [by apply pkt_dom, kt_create_attribute_with|]. intros a. pk. exact IH.
    Qed.
    Lemma pkt_start p n l : pkt (handle_start E doc p n l).
    Proof. unfold handle_start. pk; [by apply pkt_unwrap, kt_create_element|]. apply pkt_attributes. Qed.
    Lemma pkt_comment p t : pkt (handle_comment doc p t). Proof. unfold handle_comment. pk. apply pkt_dom. unfold create_comment. apply kt_with. kts. Qed.
    Lemma pkt_text p t : pkt (handle_text doc p t). Proof. unfold handle_text. pk. apply pkt_dom. unfold create_text_node. apply kt_with. kts. Qed.
    Lemma pkt_cdata p t : pkt (handle_cdata doc p t). Proof. unfold handle_cdata. pk. apply pkt_unwrap. unfold create_cdata_section. apply kt_with. kts. Qed.
    Lemma pkt_pi p t : pkt (handle_pi doc p t).
    Proof. unfold handle_pi. pk. destruct (pi_parts a). pk. apply pkt_unwrap. unfold create_processing_instruction. apply kt_with. kts. Qed.
    Lemma pkt_make v e s : pkt (make_decl v e s).
    Proof. unfold make_decl. pk; [|destruct e; pk|destruct s; pk]. intros h h' r Hg. destruct (unquote a); by intros [= <- _]. Qed.
    Lemma pkt_decl v e s : pkt (handle_decl doc v e s).
    Proof. unfold handle_decl. apply pkt_bind; [pk|]. intros [?|]; [pk|]. apply pkt_bind; [apply pkt_make|]. intros. pk. Qed.
    Lemma pkt_element : forall k p evs h h' l r, good h -> element k E doc p evs h = (h', l, r) -> good h'.
    Proof.
      induction k as [|k IH]; intros p evs h h' l r Hg; cbn [element]; [by intros [= <- _ _]|].
      assert (St : forall A (m : PM A) rest, pkt m -> match m h with
          | (h1, POk _) => element k E doc p rest h1 | (h1, PErr e) => (h1, rest, PErr e) | (h1, PPanic q) => (h1, rest, PPanic q) | (h1, PDiverge) => (h1, rest, PDiverge) end = (h', l, r) -> good h').
      { intros A m rest Hm. destruct (m h) as [h1 x] eqn:H1. pose proof (Hm _ _ _ Hg H1). destruct x; [|by intros [= <- _ _]..]. by apply IH. }
      destruct evs as [|[v e s|n at_|n at_| |t|t|t|t| |] rest]; try (by intros [= <- _ _]).
      - destruct (handle_start E doc p n at_ h) as [h1 x] eqn:H1. pose proof (pkt_start _ _ _ _ _ _ Hg H1). destruct x as [el|e|q|]; [|by intros [= <- _ _]..].
        destruct (element k E doc el rest h1) as [[h2 rest'] y] eqn:H2. apply IH in H2; [|done]. destruct y; [|by intros [= <- _ _]..]. by apply IH.
      - apply St, pkt_start. - apply St, pkt_comment. - apply St, pkt_pi. - apply St, pkt_text. - apply St, pkt_cdata.
    Qed.
    Lemma pkt_loop : forall k evs, pkt (document_loop k E doc evs).
    Proof.
      induction k as [|k IH]; intros evs h h' r Hg; cbn [document_loop]; [by intros [= <- _]|].
      assert (St : forall A (m : PM A) rest, pkt m -> match m h with
          | (h1, POk _) => document_loop k E doc rest h1 | (h1, PErr e) => (h1, PErr e) | (h1, PPanic q) => (h1, PPanic q) | (h1, PDiverge) => (h1, PDiverge) end = (h', r) -> good h').
      { intros A m rest Hm. destruct (m h) as [h1 x] eqn:H1. pose proof (Hm _ _ _ Hg H1). destruct x; [|by intros [= <- _]..]. by apply IH. }
      destruct evs as [|[v e s|n at_|n at_| |t|t|t|t| |] rest]; try (by intros [= <- _]).
      - apply St, pkt_decl.
      - destruct (handle_start E doc doc n at_ h) as [h1 x] eqn:H1. pose proof (pkt_start _ _ _ _ _ _ Hg H1). destruct x as [el|e|q|]; [|by intros [= <- _]..].
        destruct (element (S (length rest)) E doc el rest h1) as [[h2 rest'] y] eqn:H2. apply pkt_element in H2; [|done]. destruct y; [by apply IH|by apply IH|by intros [= <- _]..].
      - apply St, pkt_start. - by apply IH. - apply St, pkt_comment. - apply St, pkt_pi.
    Qed.
  End reader.
  Lemma kt_read E evs : (forall t, In t (makes (OReadXml evs)) -> G t) -> kt any (read_xml_op E evs).
  Proof.
    intros HG h h' r Hg. unfold read_xml_op, read_events.
    assert (Hc : pkt (pdom_unwrap (create_document None None None))) by (apply pkt_unwrap, kt_create_document; [apply HG; cbn; tauto|done]).
    destruct (pdom_unwrap (create_document None None None) h) as [h1 x] eqn:H1. pose proof (Hc _ _ _ Hg H1) as Hg1.
    destruct x as [d|e|p|]; [|try destruct e; by intros [= <- <-]..].
    destruct (document_loop (S (length evs)) E d evs h1) as [h2 y] eqn:H2. assert (good h2) by (eapply pkt_loop; [..|exact Hg1|exact H2]; apply HG; cbn; tauto).
    destruct y as [?|e|?|]; [|destruct e|..]; by intros [= <- <-].
  Qed.
  Lemma kt_exec E o : (forall t, In t (makes o) -> G t) -> (forall l, o = ODrop l -> kt any (drop_nodes l)) -> kt any (exec E o).
  Proof.
    intros HG HD. destruct o; cbn [exec]; try apply kt_out.
    - apply kt_create_document; [apply HG; destruct qname; cbn; tauto|]. intros Hq. apply HG. destruct qname; [cbn; tauto|done].
    - unfold create_document_type. apply (kt_bind any); [kts|]. intros. apply kt_allocM, HG. cbn. tauto.
    - by apply kt_read.
    - apply kt_create_element, HG. cbn; tauto.
    - apply kt_create_element_ns, HG. cbn; tauto.
    - apply kt_create_attribute, HG. cbn; tauto.
    - apply kt_create_attribute_with; apply HG; cbn; tauto.
    - apply kt_create_attribute_ns, HG. cbn; tauto.
    - unfold create_text_node. apply kt_with, kt_allocM, HG. cbn; tauto.
    - unfold create_cdata_section. apply kt_with, kt_allocM, HG. cbn; tauto.
    - unfold create_comment. apply kt_with, kt_allocM, HG. cbn; tauto.
    - unfold create_processing_instruction. apply kt_with. destruct (str_eqb _ _); [kts|]. apply (kt_bind any); [kts|]. intros. apply kt_allocM, HG. cbn; tauto.
    - unfold create_document_fragment. apply kt_with, kt_allocM, HG. cbn; tauto.
    - unfold create_entity_reference. apply kt_with, (kt_bind any); [kts|]. intros. apply kt_allocM, HG. cbn; tauto.
    - unfold create_notation. apply kt_with, (kt_bind any); [kts|]. intros. apply kt_allocM, HG. cbn; tauto.
    - unfold create_entity. apply kt_with, (kt_bind any); [kts|]. intros. apply kt_allocM, HG. cbn; tauto.
    - unfold create_internal_entity. apply kt_with, (kt_bind any); [kts|]. intros. apply kt_allocM, HG. cbn; tauto.
    - apply kt_insert_before.
    - apply kt_append_child.
    - apply kt_replace_child.
    - apply kt_remove_child.
    - intros h. apply kt_clone.
    - apply kt_normalize.
    - unfold set_node_value. kts.
    - unfold unset_node_value. kts.
    - apply kt_append_data.
    - apply kt_insert_data.
    - apply kt_delete_data.
    - apply kt_replace_data.
    - apply kt_split.
    - apply kt_attr_set, HG. cbn; tauto.
    - unfold attr_unset_value. kts.
    - unfold set_attribute. apply (kt_bind any); [kts|]. intros. apply kt_set_new_attribute; apply HG; cbn; tauto.
    - unfold set_attribute_ns. apply (kt_bind any); [kts|]. intros. apply kt_set_new_attribute; apply HG; cbn; tauto.
    - apply kt_set_attribute_node.
    - apply kt_remove_attribute.
    - apply kt_remove_attribute_ns.
    - apply kt_remove_attribute_node.
    - apply kt_set_decl.
    - by apply HD.
  Qed.
End types.

(** ** All types are in [G] *)
Definition typed_in (G : node_type -> Prop) (h : heap) : Prop := forall i n, h_nodes h !! i = Some n -> G (n_type n).
Lemma typed_in_exec (G : node_type -> Prop) E o h h' r : (forall t, In t (makes o) -> G t) -> typed_in G h -> exec E o h = (h', r) -> typed_in G h'.
Proof.
  intros HG Hh He. refine (proj1 (kt_exec G (typed_in G) _ _ _ E o HG _ h h' r Hh He)).
  - intros h1 i n Hg. apply Hg.
  - intros h1 i n n' Hg Hn Ht j m. cbn. intros [[<- <-]|[_ Hm]]%lookup_insert_Some; [rewrite Ht|]; by eapply Hg.
  - intros h1 n Hg Hn j m. cbn. intros [[<- <-]|[_ Hm]]%lookup_insert_Some; [done|by eapply Hg].
  - intros l _ h1 h2 x Hg. unfold drop_nodes. destruct (bool_decide _); [|by intros [= <- <-]]. intros [= <- <-]. split; [|done].
    intros i n. cbn [h_nodes]. induction l as [|y l IH]; cbn [foldr]; [apply Hg|]. intros [_ Hn]%lookup_delete_Some. by apply IH.
Qed.

(** ** A node that is there stays there *)
Section survive.
  Context (x : id).
  Definition there (h : heap) : Prop := alive h x = true.
  Lemma there_get h i n : there h -> h_nodes h !! i = Some n -> True. Proof. done. Qed.
  Lemma there_upd h i n n' : there h -> h_nodes h !! i = Some n -> n_type n' = n_type n -> there (mkHeap (<[i := n']> (h_nodes h)) (h_next h)).
  Proof. unfold there, alive. cbn. intros Hx Hn _. destruct (decide (x = i)) as [->|]; [by rewrite lookup_insert|by rewrite lookup_insert_ne]. Qed.
  Lemma there_alloc h n : there h -> True -> there (mkHeap (<[h_next h := n]> (h_nodes h)) (S (h_next h))).
  Proof. unfold there, alive. cbn. intros Hx _. destruct (decide (x = h_next h)) as [->|]; [by rewrite lookup_insert|by rewrite lookup_insert_ne]. Qed.
  Lemma there_exec E o h h' r : (forall l, o <> ODrop l) -> there h -> exec E o h = (h', r) -> there h'.
  Proof.
    intros Ho Hh He. refine (proj1 (kt_exec (fun _ => True) there there_get there_upd there_alloc E o _ _ h h' r Hh He)); [done|]. intros l Hl. by apply Ho in Hl.
  Qed.
End survive.

(** ** The node a call returns exists *)
Definition yield {A} (c : A) (m : M A) : Prop := forall h h' a, m h = (h', Ok a) -> a = c.
Definition needs {A} (c : id) (m : M A) : Prop := forall h h' a, m h = (h', Ok a) -> alive h c = true.
Lemma bind_ok {A C} (m : M A) (k : A -> M C) h h' c : bind m k h = (h', Ok c) -> exists a h1, m h = (h1, Ok a) /\ k a h1 = (h', Ok c).
Proof. unfold bind. destruct (m h) as [h1 [a|e|p|]] eqn:H1; [|done..]. intros H. by exists a, h1. Qed.
Lemma yield_bind {A C} (c : C) (m : M A) (k : A -> M C) : (forall a, yield c (k a)) -> yield c (bind m k).
Proof. intros Hk h h' x (a & h1 & _ & H)%bind_ok. by eapply Hk. Qed.
Lemma yield_ret {A} (c : A) : yield c (ret c). Proof. by intros h h' a [= _ <-]. Qed.
Lemma yield_fail {A} (c : A) e : yield c (fail e). Proof. by intros h h' a [=]. Qed.
Lemma yield_panic {A} (c : A) p : yield c (panic_ p). Proof. by intros h h' a [=]. Qed.
Ltac yl := cbv zeta; repeat first [ apply yield_ret | apply yield_fail | apply yield_panic | apply yield_bind; intros ? | progress cbv zeta
  | match goal with |- yield _ (match ?x with _ => _ end) => destruct x end | match goal with |- yield _ (if ?x then _ else _) => destruct x end ].
Lemma needs_get {A} c (k : node -> M A) : needs c (bind (getM c) k).
Proof. intros h h' a (n & h1 & H & _)%bind_ok. injection H as _ H. apply get_node_ok in H. apply alive_true. eauto. Qed.
Lemma needs_modify {A} c f (k : unit -> M A) : needs c (bind (modifyM c f) k).
Proof. intros h h' a (n & h1 & H & _)%bind_ok. unfold modifyM in H. destruct (h_nodes h !! c) eqn:Hc; [|done]. apply alive_true. eauto. Qed.
Lemma needs_read {A} c i (k : node -> M A) : (forall n, needs c (k n)) -> needs c (bind (getM i) k).
Proof. intros Hk h h' a (n & h1 & H & H2)%bind_ok. injection H as <- _. by eapply Hk. Qed.
Lemma needs_after {A} c i f (k : unit -> M A) : (forall u, needs c (k u)) -> needs c (bind (modifyM i f) k).
Proof.
  intros Hk h h' a (n & h1 & H & H2)%bind_ok. apply Hk in H2. unfold modifyM in H. destruct (h_nodes h !! i) as [m|] eqn:Hi; [|done]. injection H as <-.
  unfold alive in *. cbn in H2. destruct (decide (c = i)) as [->|]; [by rewrite Hi|by rewrite lookup_insert_ne in H2].
Qed.
Ltac nd := cbv zeta; repeat first [ apply needs_get | apply needs_modify | apply needs_read; intros ? | apply needs_after; intros ? | by intros ? ? ? [=]
  | match goal with |- needs _ (match ?x with _ => _ end) => destruct x end | match goal with |- needs _ (if ?x then _ else _) => destruct x end ].
Definition stays {A} (m : M A) : Prop := forall x h h' r, m h = (h', r) -> alive h x = true -> alive h' x = true.
Lemma kt_stays {A} (m : M A) : (forall x, kt (there x) any m) -> stays m.
Proof. intros Hm x h h' r H Hx. by apply (Hm x h h' r Hx H). Qed.
(** The result exists. *)
Definition gives (m : M id) : Prop := forall h h' a, m h = (h', Ok a) -> alive h' a = true.
Lemma gives_of c m : yield c m -> needs c m -> stays m -> gives m.
Proof. intros Hy Hn Hs h h' a H. pose proof (Hy _ _ _ H) as ->. pose proof (Hn _ _ _ H). by eapply Hs. Qed.
Lemma gives_bind {A} (m : M A) k : (forall a, gives (k a)) -> gives (bind m k).
Proof. intros Hk h h' a (x & h1 & _ & H)%bind_ok. by eapply Hk. Qed.
Lemma gives_alloc n : gives (allocM n). Proof. intros h h' a [= <- <-]. unfold alive. cbn. by rewrite lookup_insert. Qed.
Lemma gives_fail e : gives (fail e). Proof. by intros h h' a [=]. Qed.
Lemma gives_keep (m : M id) (k : id -> M id) : gives m -> (forall a, yield a (k a)) -> (forall a, stays (k a)) -> gives (bind m k).
Proof. intros Hm Hk Hs h h' b (a & h1 & H1 & H2)%bind_ok. pose proof (Hk _ _ _ _ H2) as ->. apply Hm in H1. by eapply Hs. Qed.
Ltac gv := cbv zeta; unfold with_handle; repeat first [ apply gives_alloc | apply gives_fail | apply gives_bind; intros ? | match goal with |- gives (if ?x then _ else _) => destruct x end ].
Lemma stays_insert s c r : stays (insert_before s c r). Proof. apply kt_stays. intros x. eapply (kt_insert_before (fun _ => True) (there x)); [apply there_get|apply there_upd]. Qed.
Lemma gives_insert s c r : gives (insert_before s c r).
Proof. apply (gives_of c); [unfold insert_before; yl|unfold insert_before; nd|apply stays_insert]. Qed.
Lemma stays_remove s c : stays (remove_child s c). Proof. apply kt_stays. intros x. eapply (kt_remove_child (fun _ => True) (there x)); [apply there_get|apply there_upd]. Qed.
Lemma gives_remove s c : gives (remove_child s c).
Proof. apply (gives_of c); [unfold remove_child; yl|unfold remove_child; nd|apply stays_remove]. Qed.
Lemma gives_replace s c o : gives (replace_child s c o).
Proof.
  unfold replace_child. apply gives_bind; intros ns. apply gives_bind; intros nc. destruct (negb _); [apply gives_fail|]. destruct (bool_decide _); [|apply gives_fail]. apply gives_bind; intros nx.
  apply gives_keep; [apply gives_remove|intros a; yl|]. intros a x h h' r H Hx. unfold bind in H. destruct (insert_before s c nx h) as [h1 y] eqn:H1. pose proof (stays_insert _ _ _ x _ _ _ H1 Hx).
  destruct y; by injection H as <- _.
Qed.
Lemma gives_clone deep i : gives (clone_node deep i).
Proof. intros h. unfold clone_node. revert h. cut (forall k, gives (clone_rec k deep i)); [intros H h; apply (H (walk_fuel h))|]. intros [|k]; cbn [clone_rec]; [by intros h h' a [=]|]. gv. Qed.
Lemma gives_split E i o : gives (DomOps.split E i o).
Proof.
  unfold DomOps.split. apply gives_bind; intros n1. destruct (negb _); [apply gives_fail|]. apply gives_bind; intros len. apply gives_bind; intros data. apply gives_bind; intros n2. apply gives_bind; intros nn. apply gives_keep; [apply gives_alloc|intros a; yl|].
  intros a x h h' r H Hx. unfold bind at 1, lift in H. destruct (parent_node h i) as [[p|]|e|q|]; try (injection H as <- _; done). unfold bind at 1, lift in H.
  destruct (next_sibling h i) as [nx|e|q|]; try (injection H as <- _; done). unfold bind in H. destruct (insert_before p a nx h) as [h1 y] eqn:H1. pose proof (stays_insert _ _ _ x _ _ _ H1 Hx).
  destruct y; by injection H as <- _.
Qed.
Lemma gives_set E e a : gives (set_attribute_node E e a).
Proof.
  apply (gives_of a); [unfold set_attribute_node; yl|unfold set_attribute_node; nd|]. apply kt_stays. intros x. eapply (kt_set_attribute_node (fun _ => True) (there x)); [apply there_get|apply there_upd].
Qed.
Lemma gives_unset e a : gives (remove_attribute_node e a).
Proof.
  apply (gives_of a); [unfold remove_attribute_node; yl|unfold remove_attribute_node; nd|]. apply kt_stays. intros x. eapply (kt_remove_attribute_node (fun _ => True) (there x)); [apply there_get|apply there_upd].
Qed.
Lemma stays_create_element d nm : stays (create_element d nm).
Proof. apply kt_stays. intros x. eapply (kt_create_element (fun _ => True) (there x)); [apply there_get|apply there_alloc|done]. Qed.
Lemma stays_create_element_ns d u q : stays (create_element_ns d u q).
Proof. apply kt_stays. intros x. eapply (kt_create_element_ns (fun _ => True) (there x)); [apply there_get|apply there_alloc|done]. Qed.
Lemma stays_bind {A C} (m : M A) (k : A -> M C) : stays m -> (forall a, stays (k a)) -> stays (bind m k).
Proof.
  intros Hm Hk x h h' r H Hx. unfold bind in H. destruct (m h) as [h1 y] eqn:H1. pose proof (Hm x _ _ _ H1 Hx) as Hx1. destruct y as [a|e|p|]; [|by injection H as <- _..]. by eapply Hk.
Qed.
Lemma stays_ret {A} (a : A) : stays (ret a). Proof. by intros x h h' r [= <- _]. Qed.
Lemma stays_fail {A} e : stays (A := A) (fail e). Proof. by intros x h h' r [= <- _]. Qed.
Lemma gives_document u q t o : gives (create_document_with_options u q t o).
Proof.
  unfold create_document_with_options. apply gives_bind; intros _. apply gives_keep; [apply gives_alloc|intros a; yl|]. intros d. apply stays_bind.
  - destruct u, q; try apply stays_fail; try apply stays_ret; (apply stays_bind; [apply stays_create_element_ns || apply stays_create_element|intros; apply stays_ret]).
  - intros [e|]; (apply stays_bind; [|intros; apply stays_ret]); [|apply stays_ret]. apply stays_bind; [apply stays_insert|intros; apply stays_ret].
Qed.
Lemma loop_result E doc : forall k evs h h' d, document_loop k E doc evs h = (h', POk d) -> d = doc.
Proof.
  induction k as [|k IH]; intros evs h h' d; cbn [document_loop]; [by intros [=]|].
  assert (St : forall A (m : PM A) rest, match m h with
      | (h1, POk _) => document_loop k E doc rest h1 | (h1, PErr e) => (h1, PErr e) | (h1, PPanic q) => (h1, PPanic q) | (h1, PDiverge) => (h1, PDiverge) end = (h', POk d) -> d = doc).
  { intros A m rest. destruct (m h) as [h1 [|?|?|]]; try done. by apply IH. }
  destruct evs as [|[v e s|n at_|n at_| |t|t|t|t| |] rest]; try done; try apply St.
  - by intros [= _ <-].
  - destruct (handle_start E doc doc n at_ h) as [h1 [el|e|q|]]; try done. destruct (element (S (length rest)) E doc el rest h1) as [[h2 rest'] [?|?|?|]]; try done; by apply IH.
  - by apply IH.
Qed.
Lemma read_result E evs h h' d : read_xml_op E evs h = (h', Ok (Some d)) -> alive h' d = true.
Proof.
  unfold read_xml_op, read_events. destruct (pdom_unwrap (create_document None None None) h) as [h1 [a|[]| |]] eqn:H1; try done.
  assert (Ha : alive h1 a = true).
  { unfold pdom_unwrap, pdom, err_to_panic in H1. destruct (create_document None None None h) as [h2 [b|?|?|]] eqn:H2; try done. injection H1 as <- <-. unfold create_document in H2. by eapply gives_document. }
  destruct (document_loop (S (length evs)) E a evs h1) as [h2 [b|[]| |]] eqn:H2; try done. intros [= <- <-]. pose proof (loop_result _ _ _ _ _ _ _ H2) as ->.
  eapply (pkt_loop (fun _ => True) (there a)) in H2; [exact H2|apply there_get|apply there_upd|apply there_alloc|done..].
Qed.
Lemma gives_out m h h' i : gives m -> out Some m h = (h', Ok (Some i)) -> alive h' i = true.
Proof. intros Hm (a & h1 & H1 & H2)%bind_ok. injection H2 as <- <-. by eapply Hm. Qed.
Lemma no_out {A} (m : M A) h h' i : out no_id m h <> (h', Ok (Some i)).
Proof. intros (a & h1 & H1 & H2)%bind_ok. done. Qed.
Lemma exec_result E o h h' i : exec E o h = (h', Ok (Some i)) -> alive h' i = true.
Proof.
  destruct o; cbn [exec]; try (intros H; by apply no_out in H); try apply gives_out.
  - apply gives_document.
  - unfold create_document_type. gv.
  - apply read_result.
  - unfold create_element. gv.
  - unfold create_element_ns. gv.
  - unfold create_attribute. gv.
  - unfold create_attribute_with. gv.
  - unfold create_attribute_ns. gv.
  - unfold create_text_node. gv.
  - unfold create_cdata_section. gv.
  - unfold create_comment. gv.
  - unfold create_processing_instruction. gv.
  - unfold create_document_fragment. gv.
  - unfold create_entity_reference. gv.
  - unfold create_notation. gv.
  - unfold create_entity. gv.
  - unfold create_internal_entity. gv.
  - apply gives_insert.
  - apply gives_insert.
  - apply gives_replace.
  - apply gives_remove.
  - apply gives_clone.
  - apply gives_split.
  - apply gives_set.
  - apply gives_unset.
Qed.
