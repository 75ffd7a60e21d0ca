(** * ProofIso: every call respects the correspondence of states *)
From Coq Require Import Lia.
From Verif Require Import SpecIso.

Notation rel := (id -> id -> Prop).
Implicit Types R : rel.
Definition sub (R R1 : rel) : Prop := forall a b, R a b -> R1 a b.
Lemma sub_refl R : sub R R. Proof. by intros a b. Qed.
Lemma sub_trans R1 R2 R3 : sub R1 R2 -> sub R2 R3 -> sub R1 R3. Proof. intros H1 H2 a b H. by apply H2, H1. Qed.

(** ** Monotonicity *)
Definition orel (R : rel) : option id -> option id -> Prop := option_Forall2 R.
Definition lrel (R : rel) : list id -> list id -> Prop := Forall2 R.
Lemma orel_mono R R1 o o' : sub R R1 -> option_Forall2 R o o' -> option_Forall2 R1 o o'.
Proof. intros HS H. destruct H; constructor. by apply HS. Qed.
Lemma lrel_mono R R1 l l' : sub R R1 -> Forall2 R l l' -> Forall2 R1 l l'.
Proof. intros HS H. eapply Forall2_impl; [exact H|]. exact HS. Qed.
Lemma mrel_mono {K} R R1 (l l' : list (K * id)) : sub R R1 -> map_rel R l l' -> map_rel R1 l l'.
Proof. intros HS H. eapply Forall2_impl; [exact H|]. intros p q [-> Hr]. split; [done|]. by apply HS. Qed.
Lemma erel_mono R R1 x x' : sub R R1 -> ext_rel R x x' -> ext_rel R1 x x'.
Proof. intros HS H. destruct H; constructor; eauto using orel_mono, mrel_mono. Qed.
Lemma nrel_mono R R1 n n' : sub R R1 -> node_rel R n n' -> node_rel R1 n n'.
Proof. intros HS []. split; eauto using orel_mono, lrel_mono, erel_mono. Qed.

Lemma mrel_get {K} `{EqDecision K} R k (m m' : list (K * id)) : map_rel R m m' -> option_Forall2 R (hm_get k m) (hm_get k m').
Proof. induction 1 as [|[k1 v1] [k2 v2] m m' [He Hv] _ IH]; cbn in *; [constructor|]. subst. destruct (bool_decide (k2 = k)); [by constructor|exact IH]. Qed.
Lemma mrel_insert {K} `{EqDecision K} R k v v' (m m' : list (K * id)) : map_rel R m m' -> R v v' -> map_rel R (hm_insert k v m) (hm_insert k v' m').
Proof.
  intros H Hv. induction H as [|[k1 v1] [k2 v2] m m' [He Hr] Ht IH]; cbn in *; [by repeat constructor|]. subst.
  destruct (bool_decide (k2 = k)); constructor; auto.
Qed.
Lemma mrel_remove {K} `{EqDecision K} R k (m m' : list (K * id)) : map_rel R m m' -> map_rel R (hm_remove k m) (hm_remove k m').
Proof. induction 1 as [|[k1 v1] [k2 v2] m m' [He Hr] Ht IH]; cbn in *; [constructor|]. subst. destruct (bool_decide (k2 = k)); [done|]. by constructor. Qed.
Lemma mrel_find {K} R (p : K -> bool) (m m' : list (K * id)) : map_rel R m m' ->
  option_Forall2 (fun a b => a.1 = b.1 /\ R a.2 b.2) (find_first (fun q => p q.1) m) (find_first (fun q => p q.1) m').
Proof. induction 1 as [|[k1 v1] [k2 v2] m m' [He Hr] _ IH]; cbn in *; [constructor|]. subst. destruct (p k2); [by constructor|exact IH]. Qed.
Lemma mrel_exists {K} R (p : K -> bool) (m m' : list (K * id)) : map_rel R m m' -> existsb (fun q => p q.1) m = existsb (fun q => p q.1) m'.
Proof. induction 1 as [|[k1 v1] [k2 v2] m m' [He Hr] _ IH]; cbn in *; [done|]. subst. by rewrite IH. Qed.
Lemma mrel_nil {K} R (m m' : list (K * id)) : map_rel R m m' -> is_nil m = is_nil m'.
Proof. by destruct 1. Qed.
Lemma lrel_nil R l l' : Forall2 R l l' -> is_nil l = is_nil l'.
Proof. by destruct 1. Qed.
Lemma lrel_head R l l' : Forall2 R l l' -> option_Forall2 R (head l) (head l').
Proof. destruct 1; by constructor. Qed.
Lemma lrel_last R l l' : Forall2 R l l' -> option_Forall2 R (last l) (last l').
Proof. induction 1 as [|a b l l' Hr Ht IH]; [constructor|]. destruct Ht; cbn in *; [by constructor|exact IH]. Qed.
Lemma lrel_lookup R l l' k : Forall2 R l l' -> option_Forall2 R (l !! k) (l' !! k).
Proof. intros H. revert k. induction H; intros [|k]; cbn; try constructor; auto. Qed.
Lemma lrel_app R a a' b b' : Forall2 R a a' -> Forall2 R b b' -> Forall2 R (a ++ b) (a' ++ b').
Proof. apply Forall2_app. Qed.
Lemma lrel_delete R l l' k : Forall2 R l l' -> Forall2 R (delete k l) (delete k l').
Proof. apply Forall2_delete. Qed.

(** ** Reads *)
Definition rr {A} := @res_rel A.
Lemma rr_ok {A} (RA : A -> A -> Prop) a a' : RA a a' -> res_rel RA (Ok a) (Ok a').
Proof. done. Qed.
Lemma rr_bind {A B} (RA : A -> A -> Prop) (RB : B -> B -> Prop) r r' k k' :
  res_rel RA r r' -> (forall a a', RA a a' -> res_rel RB (k a) (k' a')) -> res_rel RB (rbind r k) (rbind r' k').
Proof. intros H Hk. destruct r, r'; try done; cbn in *; auto. Qed.
Lemma rr_refl {A} (RA : A -> A -> Prop) r : (forall a, RA a a) -> res_rel RA r r.
Proof. intros H. by destruct r; cbn. Qed.
Lemma rr_eq {A} (r r' : res A) : res_rel eq r r' -> r = r'.
Proof. destruct r, r'; cbn; try done; congruence. Qed.
Lemma rr_impl {A} (RA RB : A -> A -> Prop) r r' : (forall a a', RA a a' -> RB a a') -> res_rel RA r r' -> res_rel RB r r'.
Proof. intros H. destruct r, r'; cbn; auto. Qed.

Section reads.
  Context (R : rel) (h h' : heap) (A : alike R h h').
  Lemma eq_iff a a' b b' : R a a' -> R b b' -> bool_decide (a = b) = bool_decide (a' = b').
  Proof.
    intros Ha Hb. apply bool_decide_ext. split; intros ->; [by eapply (al_fun _ _ _ A)|by eapply (al_inj _ _ _ A)].
  Qed.
  Lemma s_get i i' : R i i' -> res_rel (node_rel R) (get_node h i) (get_node h' i').
  Proof. intros Hi. unfold get_node. destruct (al_node _ _ _ A i i' Hi); [done|done]. Qed.
  Lemma s_alive i i' : R i i' -> alive h i = alive h' i'.
  Proof. intros Hi. unfold alive. by destruct (al_node _ _ _ A i i' Hi). Qed.
  Lemma s_upgrade o o' : option_Forall2 R o o' -> option_Forall2 R (upgrade h o) (upgrade h' o').
  Proof. destruct 1 as [i i' Hi|]; [|constructor]. cbn. rewrite (s_alive _ _ Hi). destruct (alive h' i'); by constructor. Qed.
  Lemma s_position i i' l l' : R i i' -> Forall2 R l l' -> position i l = position i' l'.
  Proof.
    intros Hi. induction 1 as [|a b l l' Hr _ IH]; [done|]. cbn. rewrite IH. by rewrite (eq_iff _ _ _ _ Hr Hi).
  Qed.

  Ltac get :=
    let n1 := fresh "n" in let n2 := fresh "n'" in
    let H1 := fresh "Hty" in let H2 := fresh "Hnm" in let H3 := fresh "Hvl" in let H4 := fresh "Hpa" in let H5 := fresh "How" in let H6 := fresh "Hch" in let H7 := fresh "Hex" in
    eapply rr_bind; [apply s_get; eassumption|]; intros n1 n2 [H1 H2 H3 H4 H5 H6 H7]; cbv beta; rewrite ?H1, ?H2, ?H3.

  Lemma s_name i i' : R i i' -> res_rel eq (node_name h i) (node_name h' i').
  Proof. intros Hi. unfold node_name. by get. Qed.
  Lemma s_value i i' : R i i' -> res_rel eq (node_value h i) (node_value h' i').
  Proof. intros Hi. unfold node_value. by get. Qed.
  Lemma s_type i i' : R i i' -> res_rel eq (node_type_of h i) (node_type_of h' i').
  Proof. intros Hi. unfold node_type_of. by get. Qed.
  Lemma s_children i i' : R i i' -> res_rel (lrel R) (child_nodes h i) (child_nodes h' i').
  Proof. intros Hi. unfold child_nodes. by get. Qed.
  Lemma s_first i i' : R i i' -> res_rel (orel R) (first_child h i) (first_child h' i').
  Proof. intros Hi. unfold first_child. get. by apply lrel_head. Qed.
  Lemma s_last i i' : R i i' -> res_rel (orel R) (last_child h i) (last_child h' i').
  Proof. intros Hi. unfold last_child. get. by apply lrel_last. Qed.
  Lemma s_has_children i i' : R i i' -> res_rel eq (has_child_nodes h i) (has_child_nodes h' i').
  Proof. intros Hi. unfold has_child_nodes. get. f_equal. by eapply lrel_nil. Qed.
  Lemma s_owner i i' : R i i' -> res_rel (orel R) (owner_document h i) (owner_document h' i').
  Proof. intros Hi. unfold owner_document. get. by apply s_upgrade. Qed.
  Lemma s_parent i i' : R i i' -> res_rel (orel R) (parent_node h i) (parent_node h' i').
  Proof. intros Hi. unfold parent_node, is_type. get. destruct (type_eqb _ _); [constructor|]. by apply s_upgrade. Qed.
  Lemma s_attributes i i' : R i i' -> res_rel (map_rel R) (attributes h i) (attributes h' i').
  Proof. intros Hi. unfold attributes, is_type. get. destruct (type_eqb _ _); [|constructor]. destruct Hex; try constructor. done. Qed.
  Lemma s_previous i i' : R i i' -> res_rel (orel R) (previous_sibling h i) (previous_sibling h' i').
  Proof.
    intros Hi. unfold previous_sibling, is_type. get. destruct (type_eqb _ _); [constructor|]. destruct (s_upgrade _ _ Hpa) as [p p' Hp|]; [|constructor].
    eapply rr_bind; [by apply s_get|]. intros m m' Hm. rewrite (s_position i i' _ _ Hi (nr_children _ _ _ Hm)). destruct (position i' (n_children m')) as [[|k]|]; try constructor. apply lrel_lookup, (nr_children _ _ _ Hm).
  Qed.
  Lemma s_next i i' : R i i' -> res_rel (orel R) (next_sibling h i) (next_sibling h' i').
  Proof.
    intros Hi. unfold next_sibling, is_type. get. destruct (type_eqb _ _); [constructor|]. destruct (s_upgrade _ _ Hpa) as [p p' Hp|]; [|constructor].
    eapply rr_bind; [by apply s_get|]. intros m m' Hm. rewrite (s_position i i' _ _ Hi (nr_children _ _ _ Hm)). destruct (position i' (n_children m')) as [k|]; try constructor. apply lrel_lookup, (nr_children _ _ _ Hm).
  Qed.
  Lemma s_data i i' : R i i' -> res_rel eq (data h i) (data h' i').
  Proof. intros Hi. unfold data, is_type. by get. Qed.
  Lemma s_length i i' : R i i' -> res_rel eq (length_ h i) (length_ h' i').
  Proof. intros Hi. unfold length_. eapply rr_bind; [by apply s_data|]. by intros d ? <-. Qed.
  Lemma s_substring E i i' o c : R i i' -> res_rel eq (substring_data E h i o c) (substring_data E h' i' o c).
  Proof.
    intros Hi. unfold substring_data. eapply rr_bind; [apply (rr_refl eq); done|]. intros e ? <-. destruct (_ =? _)%N; [done|]. get. by apply rr_refl.
  Qed.
  Lemma s_unwrap o o' : option_Forall2 R o o' -> res_rel R (unwrap_opt o) (unwrap_opt o').
  Proof. by destruct 1. Qed.
  Lemma s_same_document i i' j j' : R i i' -> R j j' -> res_rel eq (check_same_document h i j) (check_same_document h' i' j').
  Proof.
    intros Hi Hj. unfold check_same_document, is_type. get. eapply rr_bind; [by apply s_get|]. intros m m' Hm. destruct (type_eqb _ _).
    - destruct (nr_owner _ _ _ Hm) as [d d' Hd|]; [|done]. eapply rr_bind; [apply s_unwrap, s_upgrade; by constructor|]. intros x x' Hx. rewrite (eq_iff _ _ _ _ Hi Hx). by destruct (bool_decide _).
    - destruct How as [d d' Hd|], (nr_owner _ _ _ Hm) as [d1 d1' Hd1|]; try done.
      eapply rr_bind; [apply s_unwrap, s_upgrade; by constructor|]. intros x x' Hx. eapply rr_bind; [apply s_unwrap, s_upgrade; by constructor|]. intros y y' Hy.
      rewrite (eq_iff _ _ _ _ Hx Hy). by destruct (bool_decide _).
  Qed.
  Lemma s_any_element l l' : Forall2 R l l' -> res_rel eq (any_element h l) (any_element h' l').
  Proof. induction 1 as [|i i' l l' Hi _ IH]; [done|]. cbn. unfold is_type. get. by destruct (type_eqb _ _). Qed.
  Lemma s_doc_type i i' : R i i' -> res_rel (orel R) (doc_type h i) (doc_type h' i').
  Proof. intros Hi. unfold doc_type. get. destruct Hex; try constructor. done. Qed.
  Lemma s_by_id i i' k : R i i' -> res_rel (orel R) (get_element_by_id h i k) (get_element_by_id h' i' k).
  Proof. intros Hi. unfold get_element_by_id. get. destruct Hex; try constructor. apply s_upgrade. by apply mrel_get. Qed.
  Lemma s_resolve i i' e : R i i' -> res_rel eq (resolve_entity h i e) (resolve_entity h' i' e).
  Proof.
    intros Hi. unfold resolve_entity. eapply rr_bind; [by apply s_get|]. intros n n' Hn.
    apply (rr_bind (orel R)).
    - rewrite (nr_type _ _ _ Hn). assert (G : res_rel (orel R) match upgrade h (n_owner n) with None => Ok None | Some d => let? nd := get_node h d in if is_type NDocument nd then doc_type h d else Panic PUnwrap end
        match upgrade h' (n_owner n') with None => Ok None | Some d => let? nd := get_node h' d in if is_type NDocument nd then doc_type h' d else Panic PUnwrap end).
      { destruct (s_upgrade _ _ (nr_owner _ _ _ Hn)) as [d d' Hd|]; [|constructor]. eapply rr_bind; [by apply s_get|]. intros m m' Hm. unfold is_type. rewrite (nr_type _ _ _ Hm).
        destruct (type_eqb _ _); [by apply s_doc_type|done]. }
      destruct (n_type n'); try exact G; [by apply s_doc_type|by constructor].
    - intros o o' Ho. destruct Ho as [t t' Ht|]; [|done]. eapply rr_bind; [by apply s_get|]. intros m m' Hm. unfold is_type. rewrite (nr_type _ _ _ Hm). destruct (type_eqb _ _); [|done].
      eapply rr_bind; [apply (rr_refl eq); done|]. intros nm ? <-. destruct (nr_ext _ _ _ Hm); try done. destruct (mrel_get R nm _ _ H) as [z z' Hz|]; [|done]. by apply s_value.
  Qed.
  Lemma s_attr_text l l' : Forall2 R l l' -> res_rel eq (attr_text h l) (attr_text h' l').
  Proof. induction 1 as [|i i' l l' Hi _ IH]; [done|]. cbn. unfold is_type. get. eapply rr_bind; [exact IH|]. by intros x ? <-. Qed.
End reads.

(** A resolver is used by its answers only. *)
Lemma scan_ext E r r' : (forall t, r t = r' t) -> forall s n, scan E r s n = scan E r' s n.
Proof.
  intros H s. induction s as [|c s IH]; intros n; [done|]. cbn. destruct n; [|apply IH]. destruct (find_token E (c :: s)) as [[tok m]|]; rewrite IH; [|done]. by rewrite H.
Qed.
Lemma normalize_value_ext E r r' : (forall s, r s = r' s) -> forall k cd v, normalize_attribute_value k E r cd v = normalize_attribute_value k E r' cd v.
Proof.
  intros HR k. induction k as [|k IH]; intros cd v; [done|]. cbn. erewrite scan_ext; [reflexivity|]. intros [m| | |]; try done. cbn. rewrite HR. destruct (r' m) as [[x|]| | |]; try done. apply IH.
Qed.

Section reads2.
  Context (E : env) (HE : ordered_by_keys E) (R : rel) (h h' : heap) (A : alike R h h').
  Ltac get :=
    let n1 := fresh "n" in let n2 := fresh "n'" in
    let H1 := fresh "Hty" in let H2 := fresh "Hnm" in let H3 := fresh "Hvl" in let H4 := fresh "Hpa" in let H5 := fresh "How" in let H6 := fresh "Hch" in let H7 := fresh "Hex" in
    eapply rr_bind; [eapply s_get; eassumption|]; intros n1 n2 [H1 H2 H3 H4 H5 H6 H7]; cbv beta; rewrite ?H1, ?H2, ?H3.
  Lemma s_attr_value i i' : R i i' -> res_rel eq (attr_value E h i) (attr_value E h' i').
  Proof.
    intros Hi. unfold attr_value. get. rewrite (lrel_nil _ _ _ Hch). destruct (is_nil _); [done|]. eapply rr_bind; [by eapply s_attr_text|]. intros raw ? <-.
    rewrite (normalize_value_ext E (resolve_entity h i) (resolve_entity h' i')); [by apply rr_refl|]. intros x. apply rr_eq. by eapply s_resolve.
  Qed.
  Lemma s_owner_element i i' : R i i' -> res_rel (orel R) (owner_element h i) (owner_element h' i').
  Proof. intros Hi. unfold owner_element. get. destruct Hex; try constructor. by eapply s_upgrade. Qed.
  Lemma s_add_namespaces i i' : R i i' -> res_rel eq (add_namespaces h i) (add_namespaces h' i').
  Proof. intros Hi. unfold add_namespaces. eapply rr_bind; [by eapply s_owner|]. intros o o' Ho. destruct Ho as [d d' Hd|]; [|done]. get. by destruct Hex. Qed.
  Lemma s_attr_node i i' nm : R i i' -> res_rel (orel R) (get_attribute_node E h i nm) (get_attribute_node E h' i' nm).
  Proof.
    intros Hi. unfold get_attribute_node, is_type. get. destruct (type_eqb _ _); [|constructor]. destruct (name_from_str nm) as [x| | |]; try done; [|constructor].
    destruct Hex as [| | | |a a' ns Ha| |]; try constructor. pose proof (HE R _ _ Ha) as Ho. apply (mrel_find R (fun k => str_eqb (name_to_string k) (name_to_string x))) in Ho.
    cbn. destruct Ho as [p q [_ Hr]|]; by constructor.
  Qed.
  Lemma s_attr_node_ns i i' u l : R i i' -> res_rel (orel R) (get_attribute_node_ns E h i u l) (get_attribute_node_ns E h' i' u l).
  Proof.
    intros Hi. unfold get_attribute_node_ns, is_type. get. destruct (type_eqb _ _); [|constructor]. destruct (name_new_ns u l) as [x| | |]; try done; [|constructor].
    destruct Hex as [| | | |a a' ns Ha| |]; try constructor. pose proof (HE R _ _ Ha) as Ho. apply (mrel_find R (fun k => ostr_eqb (nm_ns k) (Some u) && str_eqb (nm_local k) l)) in Ho.
    cbn. destruct Ho as [p q [_ Hr]|]; by constructor.
  Qed.
  Lemma s_value_of o o' : option_Forall2 R o o' -> res_rel eq (value_of_attribute_node E h o) (value_of_attribute_node E h' o').
  Proof. intros [a a' Ha|]; [|done]. cbn. unfold is_type. get. destruct (type_eqb _ _); [|done]. by apply s_attr_value. Qed.
  Lemma s_get_attribute i i' nm : R i i' -> res_rel eq (get_attribute E h i nm) (get_attribute E h' i' nm).
  Proof. intros Hi. unfold get_attribute. eapply rr_bind; [by apply s_attr_node|]. apply s_value_of. Qed.
  Lemma s_get_attribute_ns i i' u l : R i i' -> res_rel eq (get_attribute_ns E h i u l) (get_attribute_ns E h' i' u l).
  Proof. intros Hi. unfold get_attribute_ns. eapply rr_bind; [by apply s_attr_node_ns|]. apply s_value_of. Qed.
  Lemma s_has_attribute i i' nm : R i i' -> res_rel eq (has_attribute h i nm) (has_attribute h' i' nm).
  Proof.
    intros Hi. unfold has_attribute, is_type. get. destruct (type_eqb _ _); [|done]. destruct (name_from_str nm) as [x| | |]; try done.
    destruct Hex as [| | | |a a' ns Ha| |]; try done. apply (mrel_exists R (fun k => str_eqb (name_to_string k) (name_to_string x)) _ _ Ha).
  Qed.
  Lemma s_has_attribute_ns i i' u l : R i i' -> res_rel eq (has_attribute_ns h i u l) (has_attribute_ns h' i' u l).
  Proof.
    intros Hi. unfold has_attribute_ns, is_type. get. destruct (type_eqb _ _); [|done]. destruct (name_new_ns u l) as [x| | |]; try done.
    destruct Hex as [| | | |a a' ns Ha| |]; try done. apply (mrel_exists R (fun k => ostr_eqb (nm_ns k) (nm_ns x) && str_eqb (nm_local k) (nm_local x)) _ _ Ha).
  Qed.
  Lemma s_decl i i' : R i i' -> res_rel eq (xml_declaration h i) (xml_declaration h' i').
  Proof. intros Hi. unfold xml_declaration. get. by destruct Hex. Qed.
  Lemma s_own_ns n n' : node_rel R n n' -> own_namespaces n = own_namespaces n'.
  Proof. intros [H1 H2 H3 H4 H5 H6 H7]. unfold own_namespaces, is_type. rewrite H1. destruct (type_eqb _ _); [|done]. by destruct H7. Qed.
  Lemma s_contains i i' p : R i i' -> res_rel eq (contains_mapping h i p) (contains_mapping h' i' p).
  Proof.
    intros Hi. unfold contains_mapping. eapply rr_bind; [by apply s_add_namespaces|]. intros b ? <-. destruct (negb b); [done|]. eapply rr_bind; [by eapply s_get|]. intros n n' Hn. by rewrite (s_own_ns _ _ Hn).
  Qed.
  Lemma s_get_namespace i i' p : R i i' -> res_rel eq (get_namespace h i p) (get_namespace h' i' p).
  Proof.
    intros Hi. unfold get_namespace. eapply rr_bind; [by apply s_add_namespaces|]. intros b ? <-. destruct (negb b); [done|]. eapply rr_bind; [by eapply s_get|]. intros n n' Hn. by rewrite (s_own_ns _ _ Hn).
  Qed.
  Lemma s_get_prefix i i' u : R i i' -> res_rel eq (get_prefix E h i u) (get_prefix E h' i' u).
  Proof.
    intros Hi. unfold get_prefix. eapply rr_bind; [by apply s_add_namespaces|]. intros b ? <-. destruct (negb b); [done|]. eapply rr_bind; [by eapply s_get|]. intros n n' Hn. by rewrite (s_own_ns _ _ Hn).
  Qed.
  Lemma s_mapped i i' u : R i i' -> res_rel eq (contains_mapped_namespace E h i u) (contains_mapped_namespace E h' i' u).
  Proof. intros Hi. unfold contains_mapped_namespace. eapply rr_bind; [by apply s_get_prefix|]. by intros x ? <-. Qed.

  (** *** Recursions, with the same fuel on both sides *)
  Lemma s_resolve_ns k : forall i i' p, R i i' -> res_rel eq (resolve_namespace_rec k h i p) (resolve_namespace_rec k h' i' p).
  Proof.
    induction k as [|k IH]; intros i i' p Hi; [done|]. cbn [resolve_namespace_rec]. eapply rr_bind; [by apply s_add_namespaces|]. intros b ? <-. destruct (negb b); [done|].
    eapply rr_bind; [by apply s_get_namespace|]. intros o ? <-. destruct o; [done|]. get. destruct Hpa as [q q' Hq|]; [|done]. rewrite (s_alive _ _ _ A _ _ Hq). destruct (alive h' q'); [by apply IH|done].
  Qed.
  Lemma s_resolve_px k : forall i i' u, R i i' -> res_rel eq (resolve_prefix_rec k E h i u) (resolve_prefix_rec k E h' i' u).
  Proof.
    induction k as [|k IH]; intros i i' p Hi; [done|]. cbn [resolve_prefix_rec]. eapply rr_bind; [by apply s_add_namespaces|]. intros b ? <-. destruct (negb b); [done|].
    eapply rr_bind; [by apply s_get_prefix|]. intros o ? <-. destruct o; try done. get. destruct Hpa as [q q' Hq|]; [|done]. rewrite (s_alive _ _ _ A _ _ Hq). destruct (alive h' q'); [by apply IH|done].
  Qed.
  Lemma s_concat {T U} (RA : T -> T -> Prop) (RB : U -> U -> Prop) (f f' : T -> res (list U)) l l' :
    (forall a a', RA a a' -> res_rel (Forall2 RB) (f a) (f' a')) -> Forall2 RA l l' -> res_rel (Forall2 RB) (concat_res f l) (concat_res f' l').
  Proof.
    intros Hf. induction 1 as [|a a' l l' Ha _ IH]; [constructor|]. cbn. eapply rr_bind; [by apply Hf|]. intros x x' Hx. eapply rr_bind; [exact IH|]. intros y y' Hy. by apply Forall2_app.
  Qed.
  Lemma s_search k p : forall i i', R i i' -> res_rel (lrel R) (search_elements k h p i) (search_elements k h' p i').
  Proof.
    induction k as [|k IH]; intros i i' Hi; [done|]. cbn [search_elements]. unfold is_type. get. destruct (type_eqb _ _); [|constructor].
    eapply rr_bind.
    - eapply (s_concat R R); [|exact Hch]. intros c c' Hc. get. destruct (type_eqb _ _); [by apply IH|constructor].
    - intros l l' Hl. cbn. apply Forall2_app; [|done]. destruct (p (n_name n')); by repeat constructor.
  Qed.
  Lemma s_fmt_list {T} (RA : T -> T -> Prop) (f f' : T -> res str) l l' : (forall a a', RA a a' -> res_rel eq (f a) (f' a')) -> Forall2 RA l l' -> res_rel eq (fmt_list f l) (fmt_list f' l').
  Proof.
    intros Hf Hl. unfold fmt_list. eapply rr_bind.
    - eapply (s_concat RA eq); [|exact Hl]. intros a a' Ha. eapply rr_bind; [by apply Hf|]. intros x ? <-. by repeat constructor.
    - intros x x' Hx. assert (x = x') as -> by (clear -Hx; induction Hx; congruence). done.
  Qed.
  Lemma s_fmt k : forall i i', R i i' -> res_rel eq (fmt_node k E h i) (fmt_node k E h' i').
  Proof.
    induction k as [|k IH]; intros i i' Hi; [done|]. cbn [fmt_node]. eapply rr_bind; [by eapply s_get|]. intros n n' Hn. destruct Hn as [Hty Hnm Hvl Hpa How Hch Hex]. cbv zeta. rewrite Hty, Hnm.
    assert (HC : res_rel eq (fmt_list (fmt_node k E h) (n_children n)) (fmt_list (fmt_node k E h') (n_children n'))) by (eapply s_fmt_list; [apply IH|done]).
    destruct (n_type n').
    - eapply rr_bind; [by eapply s_attributes|]. intros l l' Hl. eapply rr_bind.
      + eapply s_fmt_list; [|apply (HE R _ _ Hl)]. intros p q [_ Hp]. eapply rr_bind; [by apply IH|]. by intros x ? <-.
      + intros x ? <-. eapply rr_bind; [exact HC|]. by intros y ? <-.
    - unfold fmt_attribute. get. eapply rr_bind; [by apply s_attr_value|]. by intros x ? <-.
    - unfold fmt_text. eapply rr_bind; [by eapply s_data|]. by intros x ? <-.
    - unfold fmt_cdata. eapply rr_bind; [by eapply s_data|]. by intros x ? <-.
    - done.
    - unfold fmt_entity. rewrite Hnm, Hvl. by destruct Hex.
    - unfold fmt_processing_instruction. by rewrite Hnm, Hvl.
    - unfold fmt_comment. eapply rr_bind; [by eapply s_data|]. by intros x ? <-.
    - eapply rr_bind; [by eapply s_decl|]. intros d ? <-. eapply rr_bind; [by eapply s_doc_type|]. intros t t' Ht. eapply (rr_bind eq).
      + destruct Ht as [t t' Ht|]; [by apply IH|done].
      + intros x ? <-. eapply rr_bind; [exact HC|]. by intros y ? <-.
    - assert (G : forall e e', map_rel R e e' -> res_rel eq (fmt_list (fun p : Name * id => fmt_node k E h p.2) (e_ord_attr E e)) (fmt_list (fun p : Name * id => fmt_node k E h' p.2) (e_ord_attr E e'))).
      { intros e e' He. eapply s_fmt_list; [|apply (HE R _ _ He)]. intros p q [_ Hp]. by apply IH. }
      destruct Hex as [| | |e e' t t' p s x He Ht| | |];
        (eapply rr_bind; [apply G; first [eassumption|constructor]|]); intros x1 ? <-; (eapply rr_bind; [apply G; first [eassumption|constructor]|]); intros x2 ? <-; try done.
      by rewrite (mrel_nil _ _ _ He), (mrel_nil _ _ _ Ht).
    - eapply rr_bind; [exact HC|]. by intros y ? <-.
    - unfold fmt_notation. rewrite Hnm. by destruct Hex.
  Qed.
End reads2.
