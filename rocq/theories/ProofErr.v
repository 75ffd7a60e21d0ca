(** * ProofErr: the errors of every call, and the state they leave *)
From Coq Require Import Lia.
From Verif Require Import SpecErr SpecName ProofText ProofName ProofAttr ProofInv ProofSteps ProofOps ProofTree ProofElem ProofFrame.

Definition ef {A} (P : heap -> error -> Prop) (h : heap) (m : M A) : Prop := forall h' e, m h = (h', Err e) -> P h' e.
Lemma ef_bind {A B} (P : heap -> error -> Prop) h (m : M A) (k : A -> M B) : ef P h m -> (forall h1 a, m h = (h1, Ok a) -> ef P h1 (k a)) -> ef P h (bind m k).
  Proof.
    intros Hm Hk h' e H. unfold bind in H. destruct (m h) as [h1 [a|e1|p|]] eqn:Em; try done.
    - by eapply (Hk h1 a).
    - injection H as <- <-. by eapply Hm.
  Qed.
Lemma ef_ret {A} (P : heap -> error -> Prop) h (a : A) : ef P h (ret a). Proof. by intros h' e [=]. Qed.
Lemma ef_panic {A} (P : heap -> error -> Prop) h p : ef P h (@panic_ A p). Proof. by intros h' e [=]. Qed.
Lemma ef_fail {A} (P : heap -> error -> Prop) h e : P h e -> ef P h (@fail A e). Proof. by intros H h' e' [= <- <-]. Qed.
Lemma ef_lift {A} (P : heap -> error -> Prop) h (f : heap -> res A) : (forall e, f h = Err e -> P h e) -> ef P h (lift f).
  Proof. intros H h' e' [= <- He]. by apply H. Qed.
Lemma ef_read {A B} (P : heap -> error -> Prop) h (f : heap -> res A) (k : A -> M B) : (forall e, f h = Err e -> P h e) -> (forall a, f h = Ok a -> ef P h (k a)) -> ef P h (do? x := lift f in k x).
  Proof. intros H Hk. apply ef_bind; [by apply ef_lift|]. intros h1 a [= <- Ha]. by apply Hk. Qed.
Lemma ef_node {B} (P : heap -> error -> Prop) h i (k : node -> M B) : (forall n, h_nodes h !! i = Some n -> ef P h (k n)) -> ef P h (do? n := getM i in k n).
  Proof.
    intros Hk. apply ef_bind.
    - apply ef_lift. unfold get_node. by destruct (h_nodes h !! i).
    - intros h1 n H. unfold getM, lift in H. injection H as <- H. apply Hk. by apply get_node_ok.
  Qed.
Lemma ef_err_to_panic {A} (P : heap -> error -> Prop) h p (m : M A) : ef P h (err_to_panic p m).
  Proof. intros h' e H. unfold err_to_panic in H. by destruct (m h) as [h1 [a|e1|q|]]. Qed.
Lemma ef_modify P h i f : ef P h (modifyM i f). Proof. intros h' e H. unfold modifyM in H. by destruct (h_nodes h !! i). Qed.
Lemma ef_alloc P h n : ef P h (allocM n). Proof. by intros h' e [=]. Qed.
Lemma ef_handle {A} P h d (m : M A) : ef P h m -> ef P h (with_handle d m).
Proof. intros Hm. unfold with_handle. apply ef_node. by intros. Qed.
Lemma ef_out {A} P h (f : A -> option id) (m : M A) : ef P h m -> ef P h (out f m).
Proof. intros Hm. unfold out. apply ef_bind; [done|]. intros. apply ef_ret. Qed.
Lemma ef_weaken {A} (P Q : heap -> error -> Prop) h (m : M A) : (forall h' e, Q h' e -> P h' e) -> ef Q h m -> ef P h m.
Proof. intros H Hm h' e He. apply H. by eapply Hm. Qed.

(** ** Names *)
Lemma name_err s e : name_from_str s = Err e -> e = Syntax \/ e = InvalidCharacter.
Proof.
  assert (C : forall p e', check_part p = Err e' -> e' = Syntax \/ e' = InvalidCharacter).
  { intros p e'. unfold check_part. destruct (is_nil p); [intros [= <-]; by left|]. destruct (is_xml_name p) as [[]|?|?|] eqn:Hx; cbn; try done; [intros [= <-]; by right|].
    exfalso. revert Hx. unfold is_xml_name. destruct p as [|c p]; [done|]. destruct (is_xml_name_start_char c); [|done]. unfold split_at_res. by destruct (split_at _ _). }
  assert (N : forall a b c e', name_new a b c = Err e' -> e' = Syntax \/ e' = InvalidCharacter).
  { intros a b c e'. unfold name_new. intros Hn. repeat case_match; try done; injection Hn as <-; by left. }
  unfold name_from_str. destruct (is_nil s); [intros [= <-]; by left|]. destruct (split_on _ _) as [|a [|b [|c l]]]; try (intros [= <-]; by left).
  - destruct (check_part a) as [?|?|?|] eqn:Ca; cbn; try done; [apply N|intros [= <-]; by eapply C].
  - destruct (check_part b) as [?|?|?|] eqn:Cb; cbn; try done; [|intros [= <-]; by eapply C]. destruct (check_part a) as [?|?|?|] eqn:Ca; cbn; try done; [apply N|intros [= <-]; by eapply C].
Qed.
Lemma name_ns_err u s e : name_new_ns u s = Err e -> e = Syntax \/ e = InvalidCharacter \/ e = Namespace.
Proof.
  unfold name_new_ns. destruct (name_from_str s) as [n|e'|?|] eqn:Hn; cbn; try done.
  - destruct (check_namespace_uri _ _ _) as [v|e'|?|] eqn:Hc; cbn; try done. intros [= <-]. unfold check_namespace_uri in Hc.
    destruct (is_nil u); [injection Hc as <-; by left|]. right. right. repeat case_match; try done; by injection Hc as <-.
  - intros [= <-]. destruct (name_err _ _ Hn); auto.
Qed.

(** ** Tree operations *)
Definition tree_errors : list error := [HierarchyRequest; NotFound; WrongDocument].
Lemma insert_err h p c r h' e : Inv h -> insert_before p c r h = (h', Err e) -> h' = h /\ In e tree_errors.
Proof.
  intros HI H. destruct (insert_before_inv h h' p c r _ HI H Logic.I) as (np & nc & _ & _ & [(e' & [= <-] & -> & Hf)|(? & _)]); [|done].
  split; [done|]. destruct Hf; cbn; auto.
Qed.
Lemma remove_err h p c h' e : remove_child p c h = (h', Err e) -> h' = h /\ e = NotFound.
Proof.
  intros H. assert (G : ef (fun h' e => h' = h /\ e = NotFound) h (remove_child p c)); [|by apply G]. unfold remove_child. apply ef_node. intros n Hn.
  destruct (position _ _); [|by apply ef_fail]. apply ef_bind; [apply ef_modify|]. intros h1 _ _. apply ef_bind; [apply ef_modify|]. intros. apply ef_ret.
Qed.
Lemma clone_err deep k : forall i h h' e, clone_rec k deep i h <> (h', Err e).
Proof.
  induction k as [|k IH]; intros i h h' e H; [done|]. assert (G : ef (fun _ _ => False) h (clone_rec (S k) deep i)); [|by eapply G].
  cbn [clone_rec]. apply ef_node. intros n Hn. apply ef_bind; [|intros; apply ef_alloc]. destruct deep; [|apply ef_ret].
  generalize (n_children n). intros l. clear Hn H. revert h. induction l as [|c l IHl]; intros h; cbn [mapM_]; [apply ef_ret|].
  apply ef_bind; [intros hh ee Hh; by eapply IH|]. intros h1 x _. apply ef_bind; [apply IHl|]. intros. apply ef_ret.
Qed.
Lemma len_err h i e : length_ h i <> Err e.
Proof. unfold length_, data, get_node. by destruct (h_nodes h !! i). Qed.
Lemma prev_err h i e : previous_sibling h i <> Err e.
Proof.
  unfold previous_sibling, get_node. destruct (h_nodes h !! i) as [n|]; [|done]. cbn. destruct (is_type _ _); [done|]. destruct (upgrade h (n_parent n)) as [p|]; [|done].
  destruct (h_nodes h !! p) as [m|]; [|done]. cbn. by destruct (position i _) as [[]|].
Qed.
Lemma next_err h i e : next_sibling h i <> Err e.
Proof.
  unfold next_sibling, get_node. destruct (h_nodes h !! i) as [n|]; [|done]. cbn. destruct (is_type _ _); [done|]. destruct (upgrade h (n_parent n)) as [p|]; [|done].
  destruct (h_nodes h !! p) as [m|]; [|done]. cbn. destruct (position i _); [|done]. by repeat case_match.
Qed.
Lemma unwrap_err {A} (o : option A) e : unwrap_opt o <> Err e. Proof. by destruct o. Qed.
Lemma owner_err h i e : (let? o := owner_document h i in unwrap_opt o) <> Err e.
Proof. unfold owner_document, get_node. destruct (h_nodes h !! i); [|done]. cbn. apply unwrap_err. Qed.
Lemma normalize_err i h h' e : normalize i h <> (h', Err e).
Proof.
  intros H. assert (G : ef (fun _ _ => False) h (normalize i)); [|by eapply G]. clear H. unfold normalize. apply ef_node. intros n _. generalize (n_children n). intros l.
  revert h. induction l as [|c l IH]; intros h; cbn [iterM]; [apply ef_ret|]. apply ef_bind; [|intros; apply IH]. unfold normalize_step. apply ef_node. intros nc _.
  destruct (is_type NText nc); [|apply ef_ret]. apply ef_read; [intros e0 He; by apply len_err in He|]. intros len _. destruct (_ =? _)%N; [apply ef_bind; [apply ef_err_to_panic|intros; apply ef_ret]|].
  apply ef_read; [intros e0 He; by apply prev_err in He|]. intros [p|] _; [|apply ef_ret]. apply ef_node. intros np _. destruct (is_type NText np); [|apply ef_ret].
  apply ef_read; [unfold node_value, get_node; intros e0; destruct (h_nodes h !! c); [|done]; cbn; intros He; by apply unwrap_err in He|].
  intros v _. apply ef_bind; [apply ef_err_to_panic|]. intros h1 _ _. apply ef_bind; [apply ef_err_to_panic|]. intros. apply ef_ret.
Qed.

(** ** Character data *)
Lemma usize_err b x y e : usize_add b x y <> Err e.
Proof. unfold usize_add. by repeat case_match. Qed.
Lemma split_at_err v o e : split_at_res v o <> Err e.
Proof. unfold split_at_res. by destruct (split_at _ _). Qed.
Lemma replace_value_err E v o k x e : replace_value E v o k x = Err e -> e = IndexSize.
Proof.
  unfold replace_value. destruct v as [v|].
  - destruct (_ <=? _)%N; [by intros [= <-]|]. destruct (usize_add _ _ _) as [z|?|?|] eqn:Hz; cbn; try done; [|by apply usize_err in Hz].
    destruct (_ <=? _)%N; [destruct (split_at_res _ _) eqn:Hs; try done; by apply split_at_err in Hs|]. destruct (_ <? _)%N; [done|].
    destruct (split_at_res _ _) eqn:Hs; try done; [|by apply split_at_err in Hs]. cbn. destruct (split_at_res a.1 _) eqn:Hs'; try done. by apply split_at_err in Hs'.
  - destruct (usize_add _ _ _) as [z|?|?|] eqn:Hz; cbn; try done; [|by apply usize_err in Hz]. destruct (_ =? _)%N; [done|by intros [= <-]].
Qed.
Lemma replace_data_err E i o k x h h' e : replace_data E i o k x h = (h', Err e) -> h' = h /\ e = IndexSize.
Proof.
  intros H. assert (G : ef (fun h' e => h' = h /\ e = IndexSize) h (replace_data E i o k x)); [|by apply G]. unfold replace_data. apply ef_node. intros n Hn.
  apply ef_read; [intros e0 He; split; [done|by eapply replace_value_err]|]. intros v _. apply ef_modify.
Qed.
Lemma insert_data_err E i o x h h' e : insert_data E i o x h = (h', Err e) -> h' = h /\ e = IndexSize.
Proof. unfold insert_data. destruct (is_nil x); [done|]. apply replace_data_err. Qed.
Lemma delete_data_err E i o k h h' e : delete_data E i o k h = (h', Err e) -> h' = h /\ e = IndexSize.
Proof.
  intros H. assert (G : ef (fun h' e => h' = h /\ e = IndexSize) h (delete_data E i o k)); [|by apply G]. unfold delete_data.
  apply ef_read; [intros e0 He; by apply usize_err in He|]. intros a _. destruct (_ =? _)%N; [apply ef_ret|]. intros h1 e1. apply replace_data_err.
Qed.
Lemma substring_err E h i o k e : substring_data E h i o k = Err e -> e = IndexSize.
Proof.
  unfold substring_data. destruct (usize_add _ _ _) as [z|?|?|] eqn:Hz; cbn; try done; [|by apply usize_err in Hz]. destruct (_ =? _)%N; [done|].
  unfold get_node. destruct (h_nodes h !! i) as [n|]; [|done]. cbn. destruct (n_value n) as [v|]; [|by intros [= <-]]. destruct (_ <=? _)%N; [by intros [= <-]|].
  destruct (_ <=? _)%N; [destruct (split_at_res _ _) eqn:Hs; try done; by apply split_at_err in Hs|]. destruct (_ <? _)%N; [done|].
  destruct (split_at_res _ _) eqn:Hs; try done; [|by apply split_at_err in Hs]. cbn. destruct (split_at_res a.1 _) eqn:Hs'; try done. by apply split_at_err in Hs'.
Qed.

(** ** A new text or CDATA section always fits where one was before *)
Lemma insert_leaf_ok h p c r np nc h' e : Inv h -> h_nodes h !! p = Some np -> h_nodes h !! c = Some nc -> n_parent nc = None ->
  is_child_allowed (n_type np) (n_type nc) = true -> (n_type nc = NElement -> n_type np = NDocument -> n_children np = []) -> n_type np = NDocument \/ n_owner nc = n_owner np -> (n_type np = NDocument -> n_owner nc = Some p) ->
  (forall x, r = Some x -> In x (n_children np)) -> insert_before p c r h <> (h', Err e).
Proof.
  intros HI Hp Hc Hpar Hal Hel Ho1 Ho2 Hr H. destruct (insert_before_inv h h' p c r _ HI H Logic.I) as (np' & nc' & Hp' & Hc' & [(e' & [= <-] & -> & Hf)|(? & _)]); [|done].
  assert (np' = np) as -> by congruence. assert (nc' = nc) as -> by congruence.
  inversion Hf as [Hx|x nx H1 H2 H3 H4 H5 H6|x H1 H2 H3 H4|H1 H2 H3 H4|q nq H1 H2 H3 H4 H5].
  - congruence.
  - by rewrite (Hel H3 H2) in H4.
  - by apply H4, Hr.
  - revert H4. unfold check_same_document. rewrite (get_node_some _ _ _ Hp), (get_node_some _ _ _ Hc). cbn [rbind]. destruct (is_type NDocument np) eqn:Ht.
    + apply is_type_true in Ht. rewrite (Ho2 Ht). destruct (upgrade h (Some p)) as [p'|] eqn:Hu; [|done]. apply upgrade_some in Hu as [[= ->] _]. cbn. destruct (bool_decide_reflect (p' = p')); done.
    + apply is_type_false in Ht. destruct Ho1 as [?|Ho1]; [done|]. rewrite Ho1. destruct (n_owner np) as [d|]; [|done]. destruct (upgrade h (Some d)) as [d'|]; [|done]. cbn.
      destruct (bool_decide_reflect (d' = d')); done.
  - congruence.
Qed.

Lemma split_err E i o h h' e : Inv h -> (exists n, h_nodes h !! i = Some n /\ is_character_data n = true) -> DomOps.split E i o h = (h', Err e) ->
  In e [IndexSize; Syntax] /\ ((exists n, h_nodes h !! i = Some n /\ n_type n = NComment /\ e = Syntax) \/ h' = h).
Proof.
  intros HI (n & Hn & Hcd) H.
  assert (G : ef (fun h' e => In e [IndexSize; Syntax] /\ ((exists n, h_nodes h !! i = Some n /\ n_type n = NComment /\ e = Syntax) \/ h' = h)) h (DomOps.split E i o)); [|by apply G]. clear H.
  unfold DomOps.split. apply ef_node. intros n' Hn'. assert (n' = n) as -> by congruence. rewrite Hcd. cbn [negb].
  apply ef_read; [intros e0 He; by apply len_err in He|]. intros len _.
  set (m := if (len <=? o)%N then ret [] else _).
  assert (Hm : ef (fun h' e => In e [IndexSize; Syntax] /\ ((exists n, h_nodes h !! i = Some n /\ n_type n = NComment /\ e = Syntax) \/ h' = h)) h m).
  { unfold m. destruct (_ <=? _)%N; [apply ef_ret|]. apply ef_read; [intros e0 He; split; [left; symmetry; by eapply substring_err|by right]|]. intros s _.
    apply ef_bind; [|intros; apply ef_ret]. intros h1 e1 H1. apply delete_data_err in H1 as [-> ->]. split; [by left|by right]. }
  assert (Hm2 : triple (fun _ => True) h m (fun _ h1 => forall j, info h1 j = info h j)).
  { unfold m. destruct (_ <=? _)%N; [by apply triple_ret|]. apply triple_read. intros s _. eapply triple_bind; [by apply t_delete_data|]. intros x h1 _ Hi. by apply triple_ret. }
  apply ef_bind; [done|]. intros h1 s Hs. destruct (Hm2 HI h1 (Ok s) Hs Logic.I) as [Hst Hinfo]. specialize (Hinfo s eq_refl). cbn beta in Hinfo.
  assert (HI1 : Inv h1) by (by eapply isteps_inv). clear Hm Hm2. apply ef_node. intros n1 Hn1.
  assert (Hst1 : static n1 = static n) by (specialize (Hinfo i); rewrite (info_some _ _ _ Hn), (info_some _ _ _ Hn1) in Hinfo; congruence).
  injection Hst1 as Ht Hnm Ho. rewrite Ht.
  assert (Hnd1 : n_type n1 <> NDocument) by (rewrite Ht; intros Heq; unfold is_character_data, is_type in Hcd; by rewrite Heq in Hcd).
  assert (Hnd2 : n_type n1 <> NDocumentType) by (rewrite Ht; intros Heq; unfold is_character_data, is_type in Hcd; by rewrite Heq in Hcd).
  destruct (owner_some h1 i n1 HI1 Hn1 Hnd1 Hnd2) as (d & Hd & _). rewrite Hd.
  assert (Hrest : forall x, n_type x = n_type n -> n_owner x = Some d -> n_parent x = None -> Inv (allocd x h1) ->
    n_type n = NText \/ n_type n = NCData -> ef (fun h' e => In e [IndexSize; Syntax] /\ ((exists n, h_nodes h !! i = Some n /\ n_type n = NComment /\ e = Syntax) \/ h' = h)) h1
      (do? new := allocM x in do? parent := lift (fun h => parent_node h i) in
       match parent with None => ret new | Some p => do? next := lift (fun h => next_sibling h i) in do? _ := insert_before p new next in ret new end)).
  { intros x Hx1 Hx2 Hx3 HI2 Hty. apply ef_bind; [apply ef_alloc|]. intros h2 new Ha. unfold allocM in Ha. injection Ha as <- <-. change (mkHeap _ _) with (allocd x h1).
    assert (Hi2 : h_nodes (allocd x h1) !! i = Some n1) by (cbn; rewrite lookup_insert_ne; [done|pose proof (inv_lt h1 HI1 i n1 Hn1); lia]).
    apply ef_read; [intros e0; unfold parent_node; rewrite (get_node_some _ _ _ Hi2); done|]. intros [p|] Hp; [|apply ef_ret].
    apply ef_read; [intros e0 He; by apply next_err in He|]. intros nxt Hnx. apply ef_bind; [|intros; apply ef_ret]. intros h3 e3 H3. exfalso. revert H3.
    unfold parent_node in Hp. rewrite (get_node_some _ _ _ Hi2) in Hp. cbn [rbind] in Hp. destruct (is_type NAttribute n1) eqn:Hna; [done|]. injection Hp as Hp.
    assert (Hup := Hp). apply upgrade_some in Hp as [Hp Hal]. destruct Hal as [np Hnp].
    destruct (inv_node _ HI2 i n1 Hi2) as (_ & _ & G & _). destruct (G p Hp) as (_ & _ & Hl). destruct (Hl _ (info_some _ _ _ Hnp)) as [[Hal Hown] Hdoc]. cbn in Hal, Hown, Hdoc.
    assert (Hnew : h_nodes (allocd x h1) !! h_next h1 = Some x) by (cbn; apply lookup_insert).
    eapply insert_leaf_ok; [done|exact Hnp|exact Hnew|done| | | | |].
    - by rewrite Hx1, <- Ht.
    - intros Hc. rewrite Hx1 in Hc. destruct Hty; congruence.
    - destruct (decide (n_type np = NDocument)); [by left|right; rewrite Hx2, <- Hd; by apply Hown].
    - intros Hc. rewrite Hx2, <- Hd. by apply Hdoc.
    - intros y ->. unfold next_sibling in Hnx. rewrite (get_node_some _ _ _ Hi2) in Hnx. cbn [rbind] in Hnx. rewrite Hna, Hup, (get_node_some _ _ _ Hnp) in Hnx. cbn [rbind] in Hnx.
      destruct (position i (n_children np)); [|done]. revert Hnx. repeat case_match; intros Hnx; try done; injection Hnx as Hnx; by eapply elem_of_list_In, elem_of_list_lookup_2. }
  assert (Hw : wdoc h1 d) by (by apply (owner_wdoc h1 i n1)).
  unfold is_character_data, is_type in Hcd. destruct (n_type n) eqn:Tn; try done.
  - apply ef_bind; [apply ef_read; [done|intros; apply ef_ret]|]. intros h2 x Hx. unfold bind, lift in Hx. cbn in Hx. injection Hx as <- <-. apply Hrest; [done|done|done| |by left].
    destruct (t_text h1 d Hw s HI1 _ (Ok (h_next h1)) eq_refl Logic.I) as [Hs1 _]. by eapply isteps_inv.
  - apply ef_bind; [apply ef_read; [done|intros; apply ef_ret]|]. intros h2 x Hx. unfold bind, lift in Hx. cbn in Hx. injection Hx as <- <-. apply Hrest; [done|done|done| |by right].
    destruct (t_cdata h1 d Hw s HI1 _ (Ok (h_next h1)) eq_refl Logic.I) as [Hs1 _]. by eapply isteps_inv.
  - apply ef_bind; [|intros ? ? Hx; done]. apply ef_fail. split; [right; by left|]. left. by exists n.
Qed.
Lemma attr_set_err i v h h' e n : Inv h -> h_nodes h !! i = Some n -> n_type n = NAttribute -> attr_set_value i v h <> (h', Err e).
Proof.
  intros HI Hn Ht H. assert (G : ef (fun _ _ => False) h (attr_set_value i v)); [|by eapply G]. clear H. unfold attr_set_value.
  apply ef_bind; [apply ef_modify|]. intros h1 [] H1.
  destruct (t_attr_clear (fun _ => True) h i n Hn Ht Logic.I HI h1 (Ok tt)) as [Hs Hinfo]; [exact H1|done|]. specialize (Hinfo tt eq_refl). cbn beta in Hinfo.
  assert (HI1 : Inv h1) by (by eapply isteps_inv). pose proof (info_some _ _ _ Hn) as Hi. rewrite <- Hinfo in Hi. apply info_inv in Hi as (n1 & Hn1 & Hst). injection Hst as Ht1 _ Ho1. rewrite Ht in Ht1.
  apply ef_read; [intros e0 He; by apply owner_err in He|]. intros d Hd. unfold owner_document in Hd. rewrite (get_node_some _ _ _ Hn1) in Hd. cbn in Hd.
  destruct (upgrade h1 (n_owner n1)) as [d'|] eqn:Hu; [|done]. injection Hd as ->. apply upgrade_some in Hu as [Hu _].
  apply ef_node. intros nd Hnd. destruct (negb _) eqn:Hneg; [apply ef_panic|]. apply negb_false_iff, is_type_true in Hneg. apply ef_bind; [apply ef_alloc|]. intros h2 t Ha. unfold allocM in Ha. injection Ha as <- <-.
  change (mkHeap _ _) with (allocd (new_text d v) h1). apply ef_bind; [|intros; apply ef_ret]. intros h3 e3 H3. revert H3.
  assert (HI2 : Inv (allocd (new_text d v) h1)).
  { assert (Hw : wdoc h1 d) by (apply doc_wdoc; [done|]; exists (static nd); split; [by apply info_some|done]).
    destruct (t_text h1 d Hw v HI1 _ (Ok (h_next h1)) eq_refl Logic.I) as [Hs1 _]. by eapply isteps_inv. }
  eapply (insert_leaf_ok _ i (h_next h1) None n1 (new_text d v)); [done| |cbn; apply lookup_insert|done|by rewrite Ht1|done| |congruence|done].
  - cbn. rewrite lookup_insert_ne; [done|]. pose proof (inv_lt h1 HI1 i n1 Hn1). lia.
  - right. cbn. congruence.
Qed.
Lemma scan_err E repl : (forall t e, repl t <> Err e) -> forall s k e, scan E repl s k <> Err e.
Proof.
  intros Hr s. induction s as [|c s IH]; intros k e; cbn [scan]; [done|]. destruct k as [|k]; [|apply IH]. destruct (find_token E (c :: s)) as [[tok n]|].
  - destruct (repl tok) eqn:Ht; cbn; try done; [|by apply Hr in Ht]. destruct (scan E repl s (n - 1)) eqn:Hs; cbn; try done. by apply IH in Hs.
  - destruct (scan E repl s 0) eqn:Hs; cbn; try done. by apply IH in Hs.
Qed.
Lemma char_err m e : char_from_entity m <> Err e.
Proof. unfold char_from_entity. by repeat case_match. Qed.
Lemma norm_err k E (rs : str -> res (option str)) b : (forall x e, rs x <> Err e) -> forall v e, normalize_attribute_value k E rs b v <> Err e.
Proof.
  intros Hrs. induction k as [|k IH]; intros v e; cbn [normalize_attribute_value]; [done|].
  match goal with |- rbind (scan E ?r ?s ?o) _ <> _ => destruct (scan E r s o) eqn:Hs end; cbn; try done; [by destruct b|].
  apply scan_err in Hs; [done|]. intros t e'. destruct t; try apply char_err; [|done]. destruct (rs _) as [[]|?|?|] eqn:Hr; cbn; try done; by apply Hrs in Hr.
Qed.
Lemma resolve_err h i s e : resolve_entity h i s <> Err e.
Proof.
  unfold resolve_entity, get_node. destruct (h_nodes h !! i) as [n|]; [|done]. cbn [rbind].
  assert (G : forall e', (match n_type n with NDocumentType => Ok (Some i) | NDocument => doc_type h i
    | _ => match upgrade h (n_owner n) with None => Ok None | Some d => let? nd := match h_nodes h !! d with Some n => Ok n | None => Panic PNoHandle end in if is_type NDocument nd then doc_type h d else Panic PUnwrap end end) <> Err e').
  { intros e'. assert (D : forall d, doc_type h d <> Err e') by (intros d; unfold doc_type, get_node; by destruct (h_nodes h !! d)).
    destruct (n_type n); try done; try apply D; destruct (upgrade h (n_owner n)) as [d|]; try done; destruct (h_nodes h !! d) as [nd|]; try done; cbn; destruct (is_type _ _); try done; apply D. }
  destruct (match n_type n with NDocumentType => _ | _ => _ end) as [[dt|]|e'|?|] eqn:Hdt; cbn [rbind]; try done; [|by destruct (G e')].
  destruct (h_nodes h !! dt) as [nt|]; [|done]. cbn [rbind]. destruct (is_type _ _); [|done]. destruct (name_from_str s); cbn; try done.
  destruct (n_ext nt); try done. destruct (hm_get _ _) as [x|]; [|done]. unfold node_value, get_node. by destruct (h_nodes h !! x).
Qed.
Lemma attr_value_err E h i e : (let? v := attr_value E h i in unwrap_opt v) <> Err e.
Proof.
  unfold attr_value. destruct (get_node h i) as [n|?|?|] eqn:Hn; cbn [rbind]; try done; [|unfold get_node in Hn; by destruct (h_nodes h !! i)].
  destruct (is_nil _); [done|]. destruct (attr_text h (n_children n)) as [t|e'|?|] eqn:Ht; cbn [rbind]; try done.
  - destruct (normalize_attribute_value entity_fuel E (resolve_entity h i) false t) eqn:Hv; cbn [rbind]; try done. apply norm_err in Hv; [done|apply resolve_err].
  - exfalso. revert Ht. generalize (n_children n). intros l. revert e'. induction l as [|c l IH]; intros e'; cbn [attr_text]; [done|]. unfold get_node. destruct (h_nodes h !! c); [|done]. cbn [rbind].
    destruct (attr_text h l) eqn:Hl; cbn [rbind]; try done. by eapply IH.
Qed.
Lemma set_node_err E e a h h' err : Inv h -> set_attribute_node E e a h = (h', Err err) -> exists ne na, h_nodes h !! e = Some ne /\ h_nodes h !! a = Some na /\
  ((err = InvalidState /\ h' = h /\ ~ (n_type ne = NElement /\ n_type na = NAttribute)) \/ (err = WrongDocument /\ h' = h /\ n_owner na <> n_owner ne) \/
   (err = Syntax /\ exists v, registered_id h e v)).
Proof.
  intros HI H. destruct (set_attribute_node_inv E h h' e a (Err err) HI H Logic.I) as (ne & na & He & Ha & Hc). exists ne, na. split; [done|]. split; [done|].
  destruct Hc as [(-> & [= ->] & Hn)|[(_ & _ & -> & [= ->] & Hn)|(_ & _ & _ & attrs & nss & nss' & d & nd & _ & Hd & Hnd & _ & _ & Hreg)]]; [by left|right; by left|].
  right; right. inversion Hreg as [| |decl dt m o v x _ Hx _ Hg]; subst. split; [done|]. exists v, ne, d, nd, decl, dt, m, o, x. split_and!; try done. by eapply hm_get_in.
Qed.
Lemma set_new_err E e nm v h h' err ne : Inv h -> parsed_name nm -> h_nodes h !! e = Some ne -> n_type ne = NElement -> set_new_attribute E e nm v h = (h', Err err) -> err = Syntax /\ exists v, registered_id h e v.
Proof.
  intros HI Hpn He Te H. assert (G : ef (fun _ err => err = Syntax /\ exists v, registered_id h e v) h (set_new_attribute E e nm v)); [|by eapply G]. clear H. unfold set_new_attribute. apply ef_node. intros ne' He'. assert (ne' = ne) as -> by congruence.
  destruct (owner_some h e ne HI He) as (d & Hd & _); [congruence|congruence|]. rewrite Hd. apply ef_read; [done|]. intros d' [= <-].
  assert (Hw : wdoc h d) by (apply (owner_wdoc h e ne); [done|done|congruence|congruence|done]).
  assert (Hal : triple Lb h (do? a := new_attribute d nm (Some v) in allocM a) (fun a h1 => info h1 a = Some (mkS NAttribute nm (Some d)))).
  { eapply triple_weaken; [by apply t_attr|]. intros a h1 _ _ Hcr. apply created_info in Hcr. exact Hcr. }
  assert (Hassoc : ef (fun _ err => err = Syntax /\ exists v, registered_id h e v) h (do? a := (do? a := new_attribute d nm (Some v) in allocM a) in do? _ := set_attribute_node E e a in ret tt)).
  { apply ef_bind.
    - apply ef_bind; [|intros; apply ef_alloc]. unfold new_attribute. apply ef_bind; [|intros; apply ef_ret]. apply ef_bind; [apply ef_alloc|intros; apply ef_ret].
    - intros h1 a Ha. destruct (Hal HI h1 (Ok a) Ha Logic.I) as [Hs Hi]. specialize (Hi a eq_refl). cbn beta in Hi. assert (HI1 : Inv h1) by (by eapply isteps_inv).
      apply ef_bind; [|intros; apply ef_ret]. intros h2 err1 Herr. apply info_inv in Hi as (na & Hna & Hsa). injection Hsa as T1 T2 T3.
      destruct (isteps_el Lb h h1 e Lb_nodrop HI Hs) as (se & Hse & Tse); [exists (static ne); split; [by apply info_some|done]|]. apply info_inv in Hse as (ne1 & Hne1 & <-). cbn in Tse.
      destruct (set_node_err _ _ _ _ _ _ HI1 Herr) as (ne2 & na2 & Hne2 & Hna2 & Hcase). assert (ne2 = ne1) as -> by congruence. assert (na2 = na) as -> by congruence.
      destruct Hcase as [(-> & _ & Hn)|[(-> & _ & Hc)|(-> & v' & ne3 & d3 & nd & decl & dt & ids & o & x & Hne3 & Hd3 & Hnd & Hx & Hin)]]; [exfalso; by apply Hn|exfalso|].
      + pose proof (isteps_info Lb h h1 e (static ne) Lb_nodrop HI Hs (info_some _ _ _ He)) as Hx. rewrite (info_some _ _ _ Hne1) in Hx. injection Hx as _ _ Hx. apply Hc. congruence.
      + split; [done|]. assert (F : frame (h_next h) (fun _ _ => False) h h1) by (eapply fp_alloc_attribute; [|exact Ha]; lia). assert (ne3 = ne1) as -> by congruence.
        pose proof (isteps_info Lb h h1 e (static ne) Lb_nodrop HI Hs (info_some _ _ _ He)) as Hi. rewrite (info_some _ _ _ Hne1) in Hi. injection Hi as _ _ Hi.
        assert (d3 = d) as -> by congruence. destruct Hw as [Hlt _]. destruct (frame_back _ _ _ _ _ _ F Hlt Hnd) as (nd0 & Hnd0 & _ & Hf). destruct (Hf PMaps) as [[]|Hm]. cbn in Hm.
        exists v', ne, d, nd0, decl, dt, ids, o, x. split_and!; try done. congruence. }
  intros h2 err2 H2. apply (Hassoc h2 err2). rewrite bind_assoc. exact H2.
Qed.
Lemma remove_attr_node_err e a h h' err ne : Inv h -> h_nodes h !! e = Some ne -> n_type ne = NElement -> remove_attribute_node e a h <> (h', Err err).
Proof.
  intros HI He Te H. assert (G : ef (fun _ _ => False) h (remove_attribute_node e a)); [|by eapply G]. clear H. unfold remove_attribute_node. apply ef_node. intros ne' He'. assert (ne' = ne) as -> by congruence.
  destruct (inv_node h HI e ne He) as (Hex & _). unfold ext_ok in Hex. rewrite Te in Hex. destruct (n_ext ne) as [| | | |attrs nss| |] eqn:Xe; try (exfalso; first [done|by destruct Hex]).
  apply is_type_true in Te. rewrite Te. destruct (bool_decide _); [apply ef_panic|]. apply ef_node. intros na _. apply ef_bind; [apply ef_modify|]. intros h1 _ _. apply ef_bind; [apply ef_modify|]. intros. apply ef_ret.
Qed.
Lemma get_attr_err E h e s err : get_attribute_node E h e s <> Err err.
Proof. unfold get_attribute_node, get_node. destruct (h_nodes h !! e) as [n|]; [|done]. cbn. destruct (is_type _ _); [|done]. by destruct (name_from_str s). Qed.
Lemma get_attr_ns_err E h e u s err : get_attribute_node_ns E h e u s <> Err err.
Proof. unfold get_attribute_node_ns, get_node. destruct (h_nodes h !! e) as [n|]; [|done]. cbn. destruct (is_type _ _); [|done]. by destruct (name_new_ns u s). Qed.
Lemma create_document_err u q t o h h' e : Inv h -> (forall t', t = Some t' -> exists s, info h t' = Some s /\ s_type s = NDocumentType) -> create_document_with_options u q t o h = (h', Err e) -> In e (error_kinds (OCreateDocument u q t o)).
Proof.
  intros HI Ht H. assert (G : ef (fun _ e => In e (error_kinds (OCreateDocument u q t o))) h (create_document_with_options u q t o)); [|by eapply G]. clear H. unfold create_document_with_options.
  apply ef_bind; [destruct t; [apply ef_handle, ef_ret|apply ef_ret]|]. intros h0 u0 H0. assert (h0 = h) as ->.
  { destruct t as [i|]; [|by injection H0]. unfold with_handle, getM, lift, bind in H0. destruct (get_node h i); try done. by injection H0. }
  apply ef_bind; [apply ef_alloc|]. intros h1 d Hd. unfold allocM in Hd. injection Hd as <- <-. change (mkHeap _ _) with (allocd (new_document t o) h).
  assert (HI1 : Inv (allocd (new_document t o) h)).
  { eapply (prim_inv (LAlloc (new_document t o))); [|exact HI]. apply pr_alloc; [|done]. apply fresh_ok; [done|done| |done|done]. split; [done|]. split; [done|]. intros k x []. }
  assert (HD : h_nodes (allocd (new_document t o) h) !! h_next h = Some (new_document t o)) by (cbn; apply lookup_insert).
  set (h1 := allocd (new_document t o) h) in *. set (d := h_next h) in *.
  apply ef_bind.
  { destruct u as [u|], q as [q|]; try apply ef_ret; [| |]; cbn.
    - apply ef_bind; [|intros; apply ef_ret]. apply ef_handle, ef_read; [intros e0 He; destruct (name_ns_err _ _ _ He) as [->|[->| ->]]; auto|]. intros. apply ef_alloc.
    - apply ef_fail. by left.
    - apply ef_bind; [|intros; apply ef_ret]. apply ef_handle, ef_read; [intros e0 He; destruct (name_err _ _ He) as [->| ->]; auto|]. intros. apply ef_alloc. }
  intros h2 [el|] He; (apply ef_bind; [|intros; apply ef_ret]); [|apply ef_ret]. apply ef_bind; [|intros; apply ef_ret].
  assert (K : exists nm, parsed_name nm /\ h2 = allocd (new_element d nm) h1 /\ el = h_next h1).
  { assert (Kns : forall u q, create_element_ns d u q h1 = (h2, Ok el) -> exists nm, parsed_name nm /\ h2 = allocd (new_element d nm) h1 /\ el = h_next h1).
    { intros u' q' Hc. unfold create_element_ns, with_handle, getM, lift, bind in Hc. rewrite (get_node_some _ _ _ HD) in Hc. destruct (name_new_ns u' q') as [nm|?|?|] eqn:Hnm; try done. injection Hc as <- <-.
      exists nm. split; [by eapply parsed_new_ns|done]. }
    assert (Kp : forall q, create_element d q h1 = (h2, Ok el) -> exists nm, parsed_name nm /\ h2 = allocd (new_element d nm) h1 /\ el = h_next h1).
    { intros q' Hc. unfold create_element, with_handle, getM, lift, bind in Hc. rewrite (get_node_some _ _ _ HD) in Hc. destruct (name_from_str q') as [nm|?|?|] eqn:Hnm; try done. injection Hc as <- <-.
      exists nm. split; [by eapply parsed_from_str|done]. }
    destruct u as [u|], q as [q|]; try done; unfold bind in He.
    - destruct (create_element_ns d u q h1) as [h3 [x|?|?|]] eqn:Hc; try done. injection He as -> ->. by eapply Kns.
    - destruct (create_element d q h1) as [h3 [x|?|?|]] eqn:Hc; try done. injection He as -> ->. by eapply Kp. }
  destruct K as (nm & Hnm & -> & ->). intros h3 e3 H3. exfalso. revert H3.
  assert (Hw : wdoc h1 d) by (apply doc_wdoc; [done|]; exists (static (new_document t o)); split; [by apply info_some|done]).
  assert (HI2 : Inv (allocd (new_element d nm) h1)).
  { destruct (t_element h1 d Hw nm Hnm HI1 _ (Ok (h_next h1)) eq_refl Logic.I) as [Hs1 _]. by eapply isteps_inv. }
  eapply (insert_leaf_ok _ d (h_next h1) None (new_document t o) (new_element d nm)); [done| |cbn; apply lookup_insert|done|done|done|by left|done|done].
  cbn. rewrite lookup_insert_ne by (unfold d; cbn; lia). exact HD.
Qed.
Lemma replace_err p c x h h' e : Inv h -> replace_child p c x h = (h', Err e) -> In e tree_errors /\ (has_child h p x \/ h' = h).
Proof.
  intros HI H. assert (G : ef (fun h' e => In e tree_errors /\ (has_child h p x \/ h' = h)) h (replace_child p c x)); [|by apply G]. clear H. unfold replace_child.
  apply ef_node. intros np Hp. apply ef_node. intros nc Hc. destruct (negb _); [apply ef_fail; split; [by left|by right]|].
  destruct (bool_decide_reflect (x ∈ n_children np)) as [Hin|]; [|apply ef_fail; split; [right; by left|by right]]. apply elem_of_list_In in Hin.
  assert (Hch : has_child h p x) by (by exists np). apply ef_read; [intros e0 He; by apply next_err in He|]. intros nx _. apply ef_bind.
  - intros h1 e1 H1. apply remove_err in H1 as [-> ->]. split; [right; by left|by left].
  - intros h1 y Hy. apply ef_bind; [|intros; apply ef_ret]. intros h2 e2 H2. assert (HI1 : Inv h1).
    { destruct (t_remove_child (fun _ => True) h p x (fun _ _ => Logic.I) HI h1 (Ok y) Hy Logic.I) as [Hs _]. by eapply isteps_inv. }
    apply insert_err in H2 as [_ H2]; [|done]. split; [done|by left].
Qed.

(** ** The parser *)
Definition perr_ok (e : perror) : Prop := match e with PEDom x => In x [HierarchyRequest; Syntax; InvalidCharacter] | _ => True end.
Definition pef {A} (h : heap) (m : PM A) : Prop := forall h' e, m h = (h', PErr e) -> perr_ok e.
Lemma pef_bind {A B} h (m : PM A) (k : A -> PM B) : pef h m -> (forall h1 a, m h = (h1, POk a) -> pef h1 (k a)) -> pef h (pbind m k).
Proof.
  intros Hm Hk h' e H. unfold pbind in H. destruct (m h) as [h1 [a|e1|p|]] eqn:Em; try done; [by eapply Hk|]. injection H as <- <-. by eapply Hm.
Qed.
Lemma pef_ret {A} h (a : A) : pef h (pret a). Proof. by intros h' e [=]. Qed.
Lemma pef_decode h o : pef h (pdecode o). Proof. destruct o; [apply pef_ret|]. by intros h' e [= <- <-]. Qed.
Lemma pef_punwrap {A} h (o : option A) : pef h (punwrap o). Proof. unfold punwrap. by destruct o; intros h' e [=]. Qed.
Lemma pef_dom {A} h (m : M A) : ef (fun _ e => perr_ok (PEDom e)) h m -> pef h (pdom m).
Proof. intros Hm h' e H. unfold pdom in H. destruct (m h) as [h1 [a|e1|p|]] eqn:Em; try done. injection H as <- <-. by eapply Hm. Qed.
Lemma pef_unwrap {A} h (m : M A) : pef h (pdom_unwrap m). Proof. apply pef_dom, ef_err_to_panic. Qed.
Lemma leaf_err h p c np nc h' e : Inv h -> h_nodes h !! p = Some np -> n_type np = NDocument -> h_nodes h !! c = Some nc -> n_parent nc = None -> n_owner nc = Some p ->
  insert_before p c None h = (h', Err e) -> e = HierarchyRequest.
Proof.
  intros HI Hp Tp Hc Hpar Ho H. destruct (insert_before_inv h h' p c None _ HI H Logic.I) as (np' & nc' & Hp' & Hc' & [(e' & [= <-] & -> & Hf)|(? & _)]); [|done].
  assert (np' = np) as -> by congruence. assert (nc' = nc) as -> by congruence.
  inversion Hf as [Hx|x nx H1 H2 H3 H4 H5 H6|x H1 H2 H3 H4|H1 H2 H3 H4|q nq H1 H2 H3 H4 H5]; try done; [|congruence]. exfalso.
  revert H4. unfold check_same_document. rewrite (get_node_some _ _ _ Hp), (get_node_some _ _ _ Hc). cbn [rbind]. apply is_type_true in Tp. rewrite Tp, Ho.
  destruct (upgrade h (Some p)) as [p'|] eqn:Hu; [|done]. apply upgrade_some in Hu as [[= ->] _]. cbn. destruct (bool_decide_reflect (p' = p')); done.
Qed.
Lemma pef_append h d x h0 n : Inv h0 -> is_doc h0 d -> created h0 n x h -> Inv h -> n_parent n = None -> n_owner n = Some d -> pef h (pdom (append_child d x)).
Proof.
  intros HI0 (s & Hs & Ts) [-> ->] HI Hp Ho. apply pef_dom. intros h' e H. left. symmetry. apply info_inv in Hs as (nd & Hd & <-).
  eapply (leaf_err _ d (h_next h0) nd n); [exact HI| |done|cbn; apply lookup_insert|done|done|exact H]. cbn. rewrite lookup_insert_ne; [done|]. pose proof (inv_lt h0 HI0 d nd Hd). lia.
Qed.
Section parse_err.
  Context (E : env) (doc : id).
  Lemma pef_attributes el : forall l h, Inv h -> is_doc h doc -> (exists s, info h el = Some s /\ s_type s = NElement /\ s_owner s = Some doc) -> pef h (handle_attributes E doc el l).
  Proof.
    induction l as [|[name value| |] l IH]; intros h HI Hd Hel; cbn [handle_attributes]; [apply pef_ret| |by intros h' e [=]|by intros h' e [= <- <-]].
    apply pef_bind.
    { apply pef_dom. unfold create_attribute_with. apply ef_handle, ef_read; [intros e He; destruct (name_err _ _ He) as [-> | ->]; cbn; tauto|].
      intros nm _. apply ef_bind; [|intros; apply ef_alloc]. unfold new_attribute. apply ef_bind; [|intros; apply ef_ret]. apply ef_bind; [apply ef_alloc|intros; apply ef_ret]. }
    intros h1 a Ha. assert (Ha' : create_attribute_with doc name value h = (h1, Ok a)).
    { unfold pdom in Ha. destruct (create_attribute_with doc name value h) as [? [?|?|?|]]; try done. by injection Ha as -> ->. }
    assert (T : triple Lb h (create_attribute_with doc name value) (fun a h1 => exists s, info h1 a = Some s /\ s_type s = NAttribute /\ s_owner s = Some doc)).
    { unfold create_attribute_with. apply triple_handle, triple_read. intros nm Hnm. eapply triple_weaken; [apply t_attr; [by apply doc_wdoc|by eapply parsed_from_str]|].
      intros b h2 _ _ Hb. cbn in Hb. apply created_info in Hb. eauto. }
    destruct (T HI h1 (Ok a) Ha' Logic.I) as [Hs Hi]. specialize (Hi a eq_refl). cbn beta in Hi. assert (HI1 : Inv h1) by (by eapply isteps_inv).
    assert (Hel1 : exists s, info h1 el = Some s /\ s_type s = NElement /\ s_owner s = Some doc).
    { destruct Hel as (s & H1 & H2 & H3). exists s. split; [|done]. eapply isteps_info; [apply Lb_nodrop|exact HI|exact Hs|exact H1]. }
    apply pef_bind.
    { apply pef_dom. intros h2 e H2. destruct (set_node_err _ _ _ _ _ _ HI1 H2) as (ne & na & Hne & Hna & Hc). destruct Hi as (sa & Hsa & Tsa & Osa). destruct Hel1 as (se & Hse & Tse & Ose).
      rewrite (info_some _ _ _ Hna) in Hsa. injection Hsa as <-. rewrite (info_some _ _ _ Hne) in Hse. injection Hse as <-. cbn in *.
      destruct Hc as [(_ & _ & Hx)|[(_ & _ & Hx)|(-> & _)]]; [exfalso; by apply Hx|exfalso; apply Hx; congruence|cbn; tauto]. }
    intros h2 b Hb. assert (Hb' : set_attribute_node E el a h1 = (h2, Ok b)).
    { unfold pdom in Hb. destruct (set_attribute_node E el a h1) as [? [?|?|?|]]; try done. by injection Hb as -> ->. }
    destruct (t_set_attribute_node E h1 el a HI1 h2 (Ok b) Hb' Logic.I) as [Hs2 _].
    assert (Hs12 : isteps Lb h h2) by (by eapply isteps_app). apply IH.
    - by eapply isteps_inv.
    - eapply isteps_doc; [apply Lb_nodrop|exact HI|exact Hs12|done].
    - destruct Hel as (s & H1 & H2 & H3). exists s. split; [|done]. eapply isteps_info; [apply Lb_nodrop|exact HI|exact Hs12|exact H1].
  Qed.
  Lemma pef_start h name attrs : Inv h -> is_doc h doc -> pef h (handle_start E doc doc name attrs).
  Proof.
    intros HI Hd. unfold handle_start. apply pef_bind; [apply pef_decode|]. intros h0 s H0. assert (h0 = h) as -> by (destruct name; injection H0; done). clear H0.
    apply pef_bind; [apply pef_unwrap|]. intros h1 el H1. assert (H1' : create_element doc s h = (h1, Ok el)).
    { unfold pdom_unwrap, pdom, err_to_panic in H1. destruct (create_element doc s h) as [? [?|?|?|]]; try done. by injection H1 as -> ->. }
    destruct (t_create_element doc h s Hd HI h1 (Ok el) H1' Logic.I) as [Hs Hc]. destruct (Hc el eq_refl) as (nm & Hcr). assert (HI1 : Inv h1) by (by eapply isteps_inv).
    apply pef_bind; [eapply pef_append; [exact HI|done|exact Hcr|done|done|done]|]. intros h2 a Ha. assert (Ha' : insert_before doc el None h1 = (h2, Ok a)).
    { unfold pdom, append_child in Ha. destruct (insert_before doc el None h1) as [? [?|?|?|]]; try done. by injection Ha as -> ->. }
    assert (Hlf : forall nc, h_nodes h1 !! el = Some nc -> n_children nc = []) by (by eapply created_leaf).
    destruct (t_insert_leaf h1 doc el None Hlf HI1 h2 (Ok a) Ha' Logic.I) as [Hs2 Hq]. specialize (Hq a eq_refl). cbn in Hq. subst a.
    apply pef_bind; [|intros; apply pef_ret]. assert (Hs12 : isteps Lb h h2) by (by eapply isteps_app). apply pef_attributes.
    - by eapply isteps_inv.
    - eapply isteps_doc; [apply Lb_nodrop|exact HI|exact Hs12|done].
    - apply created_info in Hcr. eexists. split; [eapply isteps_info; [apply Lb_nodrop|exact HI1|exact Hs2|exact Hcr]|done].
  Qed.
  Lemma pef_comment h t : Inv h -> is_doc h doc -> pef h (handle_comment doc doc t).
  Proof.
    intros HI Hd. unfold handle_comment. apply pef_bind; [apply pef_decode|]. intros h0 s H0. assert (h0 = h) as -> by (destruct t; injection H0; done). clear H0.
    apply pef_bind; [apply pef_dom, ef_handle, ef_alloc|]. intros h1 el H1. assert (H1' : create_comment doc s h = (h1, Ok el)).
    { unfold pdom in H1. destruct (create_comment doc s h) as [? [?|?|?|]]; try done. by injection H1 as -> ->. }
    assert (T : triple Lb h (create_comment doc s) (created h (new_comment doc s))) by (by apply triple_handle, t_comment, doc_wdoc).
    destruct (T HI h1 (Ok el) H1' Logic.I) as [Hs Hc]. specialize (Hc el eq_refl). eapply pef_append; [exact HI|done|exact Hc|by eapply isteps_inv|done|done].
  Qed.
  Lemma pef_pi h t : Inv h -> is_doc h doc -> pef h (handle_pi doc doc t).
  Proof.
    intros HI Hd. unfold handle_pi. apply pef_bind; [apply pef_decode|]. intros h0 s H0. assert (h0 = h) as -> by (destruct t; injection H0; done). clear H0. destruct (pi_parts s) as [target d].
    apply pef_bind; [apply pef_unwrap|]. intros h1 el H1. assert (H1' : create_processing_instruction doc target d h = (h1, Ok el)).
    { unfold pdom_unwrap, pdom, err_to_panic in H1. destruct (create_processing_instruction doc target d h) as [? [?|?|?|]]; try done. by injection H1 as -> ->. }
    destruct (t_create_pi doc h target d Hd HI h1 (Ok el) H1' Logic.I) as [Hs Hc]. destruct (Hc el eq_refl) as (nm & Hcr). eapply pef_append; [exact HI|done|exact Hcr|by eapply isteps_inv|done|done].
  Qed.
  Lemma pef_decl h v e s : Inv h -> is_doc h doc -> pef h (handle_decl doc v e s).
  Proof.
    intros HI Hd. unfold handle_decl. apply pef_bind; [apply pef_dom, ef_lift; intros e0; unfold xml_declaration; destruct (get_node h doc) eqn:Hg; cbn; try done; unfold get_node in Hg; by destruct (h_nodes h !! doc)|].
    intros h1 old H1. assert (h1 = h) as ->.
    { unfold pdom, lift in H1. destruct (xml_declaration h doc); try done. by injection H1. }
    destruct old; [by intros h' x0 [= <- <-]|]. apply pef_bind.
    { unfold make_decl. apply pef_bind; [apply pef_punwrap|]. intros h2 v1 _. apply pef_bind; [intros h' x; destruct (unquote v1); intros [= <- <-]; done|]. intros h3 v2 _.
      apply pef_bind; [destruct e; [apply pef_bind; [apply pef_punwrap|intros; apply pef_ret]|apply pef_ret]|]. intros h4 e1 _.
      apply pef_bind; [destruct s; [apply pef_bind; [apply pef_punwrap|intros; apply pef_ret]|apply pef_ret]|]. intros. apply pef_ret. }
    intros h2 r Hmk. assert (h2 = h) as ->.
    { unfold make_decl, pbind, punwrap, pret in Hmk. destruct v as [v1|]; [|done]. destruct (unquote v1); try done. destruct e as [[?|]|]; try done; destruct s as [[?|]|]; try done; by injection Hmk. }
    apply pef_bind; [apply pef_punwrap|]. intros h3 v1 Hv. assert (h3 = h) as -> by (unfold punwrap in Hv; destruct (version_from_str _); [|done]; by injection Hv).
    apply pef_bind.
    { apply pef_dom, ef_lift. intros e0. unfold xml_decl_new, is_encoding. destruct r.1.2 as [x|]; [|done]. destruct x as [|c x]; cbn [rbind]; [done|]. destruct (is_encoding_start_char c); cbn [rbind]; [|done].
      destruct (split_at_res (c :: x) 1) eqn:Hsp; cbn [rbind]; try done; [by destruct (forallb _ _)|by apply split_at_err in Hsp]. }
    intros h4 d Hd4. assert (h4 = h) as -> by (unfold pdom, lift in Hd4; destruct (xml_decl_new _ _ _); try done; by injection Hd4).
    apply pef_dom. unfold set_xml_declaration. apply ef_node. intros n Hn. destruct Hd as (sd & Hsd & Td). rewrite (info_some _ _ _ Hn) in Hsd. injection Hsd as <-. cbn in Td.
    destruct (doc_ext h doc n HI Hn Td) as (? & ? & ? & ? & ->). apply ef_modify.
  Qed.
  Lemma pef_document : forall k evs h h' e, Inv h -> is_doc h doc -> document_loop k E doc evs h = (h', PErr e) -> perr_ok e.
  Proof.
    induction k as [|k IH]; intros evs h h' e HI Hd H; [done|]. cbn [document_loop] in H.
    assert (HS : forall A (m : PM A) l, pef h m -> ptriple Lb h m (fun _ _ => True) ->
      match m h with (h1, POk _) => document_loop k E doc l h1 | (h1, PErr e) => (h1, PErr e) | (h1, PPanic q) => (h1, PPanic q) | (h1, PDiverge) => (h1, PDiverge) end = (h', PErr e) -> perr_ok e).
    { intros A m l Hm Ht H0. destruct (m h) as [h1 [a|e1|q|]] eqn:Em; try done; [|injection H0 as <- <-; by eapply Hm]. destruct (Ht HI _ _ Em Logic.I) as [Hs _].
      eapply IH; [by eapply isteps_inv|eapply isteps_doc; [apply Lb_nodrop|exact HI|exact Hs|done]|exact H0]. }
    destruct evs as [|ev evs]; [done|]. destruct ev as [v en s|name attrs|name attrs| |t|t|t|t| |]; try (injection H as <- <-; done).
    - eapply HS; [| |exact H]; [by apply pef_decl|apply p_decl].
    - destruct (handle_start E doc doc name attrs h) as [h1 [el|e1|q|]] eqn:Em; try done; [|injection H as <- <-; eapply (pef_start h name attrs HI Hd); exact Em].
      destruct (p_start E doc h doc name attrs Hd HI _ _ Em Logic.I) as [Hs _]. assert (HI1 : Inv h1) by (by eapply isteps_inv). assert (Hd1 : is_doc h1 doc) by (eapply isteps_doc; [apply Lb_nodrop|exact HI|exact Hs|done]).
      destruct (element (S (length evs)) E doc el evs h1) as [[h2 rest2] [x|e1|p|]] eqn:Ee; try done;
        pose proof (p_element E doc _ _ _ _ _ _ _ HI1 Hd1 Ee Logic.I) as Hs2; (eapply IH; [by eapply isteps_inv|eapply isteps_doc; [apply Lb_nodrop|exact HI1|exact Hs2|done]|exact H]).
    - eapply HS; [| |exact H]; [by apply pef_start|by apply p_start].
    - eapply IH; done.
    - eapply HS; [| |exact H]; [by apply pef_comment|by apply p_comment].
    - eapply HS; [| |exact H]; [by apply pef_pi|by apply p_pi].
  Qed.
End parse_err.
Lemma read_err E evs h h' e : Inv h -> read_xml_op E evs h = (h', Err e) -> In e [HierarchyRequest; Syntax; InvalidCharacter].
Proof.
  intros HI H. unfold read_xml_op in H. destruct (read_events E evs h) as [h1 [d|pe|q|]] eqn:Hr; try done.
  assert (G : perr_ok pe); [|destruct pe; cbn in G; injection H as <- <-; try done; right; by left]. clear H. unfold read_events in Hr.
  destruct (pdom_unwrap (create_document None None None) h) as [h2 [d|e2|q|]] eqn:Hc; try done.
  assert (T : ptriple Lb h (pdom_unwrap (create_document None None None)) (fun d h' => is_doc h' d)) by (by apply ptriple_unwrap, t_create_document).
  destruct (T HI _ _ Hc Logic.I) as [Hs Hd]. specialize (Hd d eq_refl). eapply pef_document; [by eapply isteps_inv|exact Hd|exact Hr].
Qed.

(** ** The whole library *)
Definition unchanged (h h' : heap) : Prop := forall j n, h_nodes h !! j = Some n -> h_nodes h' !! j = Some n.
Lemma frame_unchanged h h' : lt_next h -> frame (h_next h) (fun _ _ => False) h h' -> unchanged h h'.
Proof.
  intros HL F j n Hn. destruct (fr_some _ _ _ _ F j n (HL _ _ Hn) Hn) as (n' & Hn' & HS & Hf). rewrite Hn'. f_equal. injection HS as H1 H2 H3.
  destruct (Hf PValue) as [[]|X1], (Hf PParent) as [[]|X2], (Hf PChildren) as [[]|X3], (Hf PMaps) as [[]|X4]. cbn in *. destruct n, n'; cbn in *; congruence.
Qed.
Lemma exec_err E h o h' e : wf_env E -> Inv h -> typed_op h o = true -> exec E o h = (h', Err e) -> In e (error_kinds o) /\ (half_done h o e \/ unchanged h h').
Proof.
  intros HE HI Hty H. assert (HL : lt_next h) by (intros j n; apply inv_lt; done).
  assert (Hq : forall hh, hh = h -> unchanged h hh) by (by intros hh -> j n).
  assert (Hfr : (forall l, o <> ODrop l) -> (forall j f, ~ writes h o j f) -> unchanged h h').
  { intros H1 H2. apply frame_unchanged; [done|]. eapply frame_weaken; [|intros j f _ Hw; exact (H2 j f Hw)|by eapply exec_frame]. done. }
  assert (P1 : forall (s : str) (e0 : error), name_from_str s = Err e0 -> In e0 plain_errors) by (intros s e0 He; destruct (name_err _ _ He) as [-> | ->]; cbn; auto).
  assert (P2 : forall (u s : str) (e0 : error), name_new_ns u s = Err e0 -> In e0 ns_errors) by (intros u s e0 He; destruct (name_ns_err _ _ _ He) as [-> | [-> | ->]]; cbn; auto).
  assert (Pf : forall d s (f : Name -> node) hh ee, with_handle d (do? nm := lift (fun _ => name_from_str s) in allocM (f nm)) h = (hh, Err ee) -> In ee plain_errors).
  { intros d s f. apply (ef_handle (fun _ ee => In ee plain_errors)), ef_read; [by apply P1|intros; apply ef_alloc]. }
  assert (Pa : forall d s v hh ee, with_handle d (do? nm := lift (fun _ => name_from_str s) in do? a := new_attribute d nm v in allocM a) h = (hh, Err ee) -> In ee plain_errors).
  { intros d s v. apply (ef_handle (fun _ ee => In ee plain_errors)), ef_read; [by apply P1|]. intros nm _. apply ef_bind; [|intros; apply ef_alloc]. unfold new_attribute. apply ef_bind; [|intros; apply ef_ret]. destruct v; [|apply ef_ret]. apply ef_bind; [apply ef_alloc|intros; apply ef_ret]. }
  assert (Pn : forall d u s (f : Name -> node) hh ee, with_handle d (do? nm := lift (fun _ => name_new_ns u s) in allocM (f nm)) h = (hh, Err ee) -> In ee ns_errors).
  { intros d u s f. apply (ef_handle (fun _ ee => In ee ns_errors)), ef_read; [by apply P2|intros; apply ef_alloc]. }
  assert (Pna : forall d u s v hh ee, with_handle d (do? nm := lift (fun _ => name_new_ns u s) in do? a := new_attribute d nm v in allocM a) h = (hh, Err ee) -> In ee ns_errors).
  { intros d u s v. apply (ef_handle (fun _ ee => In ee ns_errors)), ef_read; [by apply P2|]. intros nm _. apply ef_bind; [|intros; apply ef_alloc]. unfold new_attribute. apply ef_bind; [|intros; apply ef_ret]. destruct v; [|apply ef_ret]. apply ef_bind; [apply ef_alloc|intros; apply ef_ret]. }
  assert (Hout : forall {A} (f : A -> option id) (m : M A), out f m h = (h', Err e) -> m h = (h', Err e)).
  { intros A f m Ho. unfold out, bind in Ho. destruct (m h) as [h1 [a|e1|p|]]; try done. by injection Ho as -> ->. }
  assert (Hel : forall i, match h_nodes h !! i with Some n => type_eqb NElement (n_type n) | None => false end = true -> exists ne, h_nodes h !! i = Some ne /\ n_type ne = NElement).
  { intros i Hi. destruct (h_nodes h !! i) as [n|]; [|done]. exists n. split; [done|]. unfold type_eqb in Hi. apply bool_decide_eq_true in Hi. done. }
  destruct o; cbn [exec] in H; try (apply Hout in H); cbn [error_kinds half_done];
    try (split; [eapply Pf; exact H|right; (apply Hfr; [done|by intros j f []])]); try (split; [eapply Pa; exact H|right; (apply Hfr; [done|by intros j f []])]);
    try (exfalso; revert H; unfold create_text_node, create_cdata_section, create_comment, create_document_fragment; apply (ef_handle (fun _ _ => False)), ef_alloc).
  - split; [|right; (apply Hfr; [done|by intros j f []])]. eapply create_document_err; [done| |exact H]. intros t' ->. cbn in Hty. destruct (h_nodes h !! t') as [n|] eqn:Hn; [|done]. exists (static n). split; [by apply info_some|].
    unfold type_eqb in Hty. apply bool_decide_eq_true in Hty. done.
  - split; [|right; (apply Hfr; [done|by intros j f []])]. revert h' e H Hfr Hout. intros h' e H _ _. revert h' e H. apply (ef_read (fun _ ee => In ee plain_errors)); [by apply P1|intros; apply ef_alloc].
  - split; [by eapply read_err|right; (apply Hfr; [done|by intros j f []])].
  - split; [|right; (apply Hfr; [done|by intros j f []])]. eapply Pn; exact H.
  - split; [|right; (apply Hfr; [done|by intros j f []])]. eapply Pna; exact H.
  - split; [|right; (apply Hfr; [done|by intros j f []])]. assert (G : ef (fun _ ee => In ee plain_errors) h (create_processing_instruction d target s)); [|by eapply G]. unfold create_processing_instruction.
    apply ef_handle. destruct (str_eqb _ _); [apply ef_fail; by left|]. apply ef_read; [by apply P1|intros; apply ef_alloc].
  - apply insert_err in H as [-> H]; [|done]. split; [done|(right; by apply Hq)].
  - apply insert_err in H as [-> H]; [|done]. split; [done|(right; by apply Hq)].
  - apply replace_err in H as [H1 [H2| ->]]; [|  |done]; (split; [done|]); [by left|(right; by apply Hq)].
  - apply remove_err in H as [-> ->]. split; [by left|(right; by apply Hq)].
  - by apply clone_err in H.
  - by apply normalize_err in H.
  - exfalso. revert H. apply (ef_modify (fun _ _ => False)).
  - exfalso. revert H. apply (ef_modify (fun _ _ => False)).
  - exfalso. revert H. unfold append_data. destruct (is_nil _); [done|]. apply (ef_modify (fun _ _ => False)).
  - apply insert_data_err in H as [-> ->]. split; [by left|(right; by apply Hq)].
  - apply delete_data_err in H as [-> ->]. split; [by left|(right; by apply Hq)].
  - apply replace_data_err in H as [-> ->]. split; [by left|(right; by apply Hq)].
  - apply split_err in H as [H1 H2]; [|done|].
    + split; [done|]. destruct H2 as [H2| ->]; [by left|(right; by apply Hq)].
    + cbn in Hty. destruct (h_nodes h !! i) as [n|]; [|done]. exists n. split; [done|]. unfold is_character_data, is_type. destruct (n_type n); done.
  - exfalso. cbn in Hty. destruct (h_nodes h !! i) as [n|] eqn:Hn; [|done]. unfold type_eqb in Hty. apply bool_decide_eq_true in Hty. eapply (attr_set_err i v h h' e n); done.
  - exfalso. revert H. apply (ef_modify (fun _ _ => False)).
  - destruct (Hel _ Hty) as (ne & Hne & Te). unfold set_attribute, bind, lift in H. destruct (name_from_str name) as [nm|e1|p1|] eqn:Hnm; try done.
    + eapply set_new_err in H; [|done|by eapply parsed_from_str|done|done]. split; [left; by destruct H|by left].
    + injection H as <- ->. split; [by eapply P1|right; by apply Hq].
  - destruct (Hel _ Hty) as (ne & Hne & Te). unfold set_attribute_ns, bind, lift in H. destruct (name_new_ns uri qname) as [nm|e1|p1|] eqn:Hnm; try done.
    + eapply set_new_err in H; [|done|by eapply parsed_new_ns|done|done]. split; [left; by destruct H|by left].
    + injection H as <- ->. split; [by eapply P2|right; by apply Hq].
  - apply set_node_err in H as (ne & na & _ & _ & [(-> & -> & _)|[(-> & -> & _)|[-> H]]]); [| | |done]; (split; [cbn; tauto|]); [(right; by apply Hq)|(right; by apply Hq)|by left].
  - exfalso. destruct (Hel _ Hty) as (ne & Hne & Te). unfold remove_attribute, bind, lift in H. destruct (get_attribute_node E h e0 name) as [[a|]|?|?|] eqn:Hg; try done; [|by apply get_attr_err in Hg].
    destruct (remove_attribute_node e0 a h) as [h1 [?|?|?|]] eqn:Hr; try done. by eapply remove_attr_node_err in Hr.
  - exfalso. destruct (Hel _ Hty) as (ne & Hne & Te). unfold remove_attribute_ns, bind, lift in H. destruct (get_attribute_node_ns E h e0 uri local) as [[a|]|?|?|] eqn:Hg; try done; [|by apply get_attr_ns_err in Hg].
    destruct (remove_attribute_node e0 a h) as [h1 [?|?|?|]] eqn:Hr; try done. by eapply remove_attr_node_err in Hr.
  - exfalso. destruct (Hel _ Hty) as (ne & Hne & Te). by eapply remove_attr_node_err in H.
  - exfalso. cbn in Hty. unfold set_xml_declaration in H. destruct (h_nodes h !! d) as [n|] eqn:Hn; [|done]. unfold type_eqb in Hty. apply bool_decide_eq_true in Hty.
    destruct (inv_node h HI d n Hn) as (Hex & _). unfold ext_ok in Hex. rewrite <- Hty in Hex. unfold bind, getM, lift in H. rewrite (get_node_some _ _ _ Hn) in H. destruct (n_ext n); try done; try (by destruct Hex).
    revert H. apply (ef_modify (fun _ _ => False)).
  - exfalso. unfold drop_nodes in H. by destruct (bool_decide _).
Qed.
