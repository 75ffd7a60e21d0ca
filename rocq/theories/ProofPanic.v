(** * ProofPanic: which computations panic *)
From Coq Require Import Lia.
From Verif Require Import SpecPanic ProofText ProofData ProofAttr ProofName ProofInv ProofSteps ProofOps ProofTree ProofInsert ProofElem ProofErr ProofWalk
  PropText PropName PropData PropTree PropInsert PropElem PropSplit PropNorm PropDrop PropAccess.

#[local] Opaque normalize_attribute_value.

Definition panics {A} (m : M A) (h : heap) : Prop := exists q, (m h).2 = Panic q.
Lemma panics_out {A} (f : A -> option id) (m : M A) h : panics (out f m) h <-> panics m h.
Proof.
  unfold panics, out, bind. destruct (m h) as [h1 [a|e|p|]]; cbn; split; intros [q Hq]; try done; injection Hq as ->; by exists q.
Qed.
Lemma panics_bind {A B} (m : M A) (k : A -> M B) h h1 a : m h = (h1, Ok a) -> panics (bind m k) h <-> panics (k a) h1.
Proof. intros Hm. unfold panics, bind. by rewrite Hm. Qed.
Lemma panics_node {B} i n (k : node -> M B) h : h_nodes h !! i = Some n -> panics (bind (getM i) k) h <-> panics (k n) h.
Proof. intros Hn. apply panics_bind. unfold getM, lift. by rewrite (get_node_some _ _ _ Hn). Qed.
Lemma panics_read {A B} (f : heap -> res A) a (k : A -> M B) h : f h = Ok a -> panics (bind (lift f) k) h <-> panics (k a) h.
Proof. intros Hf. apply panics_bind. unfold lift. by rewrite Hf. Qed.
Lemma not_panics {A} (m : M A) h h' r : m h = (h', r) -> returned r -> ~ panics m h.
Proof. intros Hm Hr [q Hq]. rewrite Hm in Hq. cbn in Hq. by subst. Qed.
Lemma not_panics_ok {A} (m : M A) h h' a : m h = (h', Ok a) -> ~ panics m h.
Proof. intros Hm. by eapply not_panics. Qed.
(** A first part that returns or panics by itself. *)
Lemma panics_first {A B} (m : M A) (k : A -> M B) h : panics (bind m k) h <-> panics m h \/ exists h1 a, m h = (h1, Ok a) /\ panics (k a) h1.
Proof.
  unfold panics, bind. destruct (m h) as [h1 [a|e|p|]] eqn:Hm; cbn.
  - split; [intros Hk; right; by exists h1, a|]. intros [[q Hq]|(h2 & b & Hq & Hk)]; [done|]. by injection Hq as <- <-.
  - split; [by intros [q Hq]|]. by intros [[q Hq]|(h2 & b & Hq & _)].
  - split; [intros [q Hq]; left; injection Hq as ->; by exists q|]. intros [[q Hq]|(h2 & b & Hq & _)]; [|done]. injection Hq as ->. by exists q.
  - split; [by intros [q Hq]|]. by intros [[q Hq]|(h2 & b & Hq & _)].
Qed.

(** ** Insertion *)
Lemma orphaned_dec h i : orphaned h i \/ forall d, document_of h i = Some d -> alive h d = true.
Proof.
  unfold orphaned. destruct (document_of h i) as [d|]; [|by right]. destruct (alive h d) eqn:Ha; [right; by intros ? [= <-]|left; eauto].
Qed.
Lemma remove_live h q c nq : Inv h -> h_nodes h !! q = Some nq -> In c (n_children nq) -> exists h1, remove_child q c h = (h1, Ok c).
Proof.
  intros HI Hq Hin. rewrite (remove_child_eq h q c nq HI Hq). destruct (position_some c _ Hin) as [k ->].
  destruct (inv_node h HI q nq Hq) as (_ & _ & _ & [G _] & _). destruct (G c Hin) as (_ & s & (nc & Hnc & _)%info_inv & _). rewrite Hnc. by eexists.
Qed.
Lemma remove_child_no_panic h q c nq : Inv h -> h_nodes h !! q = Some nq -> ~ panics (remove_child q c) h.
Proof.
  intros HI Hq. destruct (position c (n_children nq)) as [k|] eqn:Hk.
  - destruct (remove_live h q c nq HI Hq) as [h1 H1]; [apply position_lookup in Hk as [Hk _]; by eapply elem_of_list_In, elem_of_list_lookup_2|]. by eapply not_panics_ok.
  - eapply (not_panics _ _ h (Err NotFound)); [|done]. rewrite (remove_child_eq h q c nq HI Hq). by rewrite Hk.
Qed.
(** The checks before the document check: either one of them fails, or all of them hold. *)
Lemma insert_checks h p c r np nc : Inv h -> h_nodes h !! p = Some np -> h_nodes h !! c = Some nc ->
  (exists e, insert_before p c r h = (h, Err e)) \/
  (permitted h p c /\ ~ second_element h p c /\ (forall x, r = Some x -> child h p x)).
Proof.
  intros HI Hp Hc. destruct (is_child_allowed (n_type np) (n_type nc)) eqn:Hal.
  2:{ left. unfold insert_before. rewrite (bind_node _ _ _ _ Hp), (bind_node _ _ _ _ Hc), Hal. by eexists. }
  assert (Hany : exists b, (if is_type NDocument np && is_type NElement nc then lift (fun h => any_element h (n_children np)) else ret false) h = (h, Ok b) /\ (b = false -> ~ second_element h p c)).
  { destruct (is_type NDocument np && is_type NElement nc) eqn:Hb.
    - apply andb_true_iff in Hb as [Hb1%is_type_true Hb2%is_type_true]. unfold lift.
      destruct (any_element h (n_children np)) as [b| | |] eqn:Ha.
      + exists b. split; [done|]. intros ->. apply (second_iff h p c np nc Hp Hc). intros _ _ y ny Hy Hny. by eapply ProofSteps.any_element_false.
      + by apply any_element_err in Ha.
      + exfalso. destruct (inv_node h HI p np Hp) as (_ & _ & _ & [G _] & _). revert Ha. assert (HL : Forall (fun x => exists n, h_nodes h !! x = Some n) (n_children np)).
        { apply List.Forall_forall. intros x Hx. destruct (G x Hx) as (_ & s & (nx & Hnx & _)%info_inv & _). eauto. }
        clear -HL. induction HL as [|x l [n Hn] _ IH]; [done|]. cbn. rewrite (get_node_some _ _ _ Hn). cbn [rbind]. by destruct (is_type NElement n).
      + exfalso. revert Ha. generalize (n_children np). induction l as [|x l IH]; [done|]. cbn. unfold get_node. destruct (h_nodes h !! x) as [n|]; [|done]. cbn [rbind]. by destruct (is_type NElement n).
    - exists false. split; [done|]. intros _. apply (second_iff h p c np nc Hp Hc). intros H1%is_type_true H2%is_type_true. by rewrite H1, H2 in Hb. }
  destruct Hany as (b & Hb & Hsec). destruct b.
  { left. unfold insert_before. rewrite (bind_node _ _ _ _ Hp), (bind_node _ _ _ _ Hc), Hal. cbn [negb]. rewrite (bind_ok _ _ _ _ _ Hb). by eexists. }
  destruct r as [y|].
  - destruct (position y (n_children np)) as [k|] eqn:Hk.
    + right. split; [by apply (permitted_iff h p c np nc)|]. split; [by apply Hsec|]. intros x [= <-]. apply (child_iff h p np y Hp). apply position_lookup in Hk as [Hk _]. by eapply elem_of_list_In, elem_of_list_lookup_2.
    + left. unfold insert_before. rewrite (bind_node _ _ _ _ Hp), (bind_node _ _ _ _ Hc), Hal. cbn [negb]. rewrite (bind_ok _ _ _ _ _ Hb), Hk. by eexists.
  - right. split; [by apply (permitted_iff h p c np nc)|]. split; [by apply Hsec|]. done.
Qed.
Lemma insert_panics_iff h p c r np nc : Inv h -> h_nodes h !! p = Some np -> h_nodes h !! c = Some nc ->
  panics (insert_before p c r) h <-> insert_faulty h p c r.
Proof.
  intros HI Hp Hc.
  assert (Hself : permitted h p c -> ~ second_element h p c -> (forall x, r = Some x -> child h p x) -> p = c -> ~ orphaned h p ->
    (panics (insert_before p c r) h <-> forall q, parent_node h c = Ok (Some q) -> child h q c)).
  { intros Hper Hsec Href <- Hor. assert (nc = np) as -> by congruence. apply (permitted_iff h p p np np Hp Hp) in Hper as Hal.
    destruct (child_type_docs _ _ Hal) as (Hd1 & Hd2 & Hd3 & Hd4). destruct (owner_some h p np HI Hp Hd1 Hd2) as (d & Hd & _).
    assert (Hnd : is_type NDocument np = false) by (by apply is_type_false).
    assert (Had : alive h d = true). { destruct (alive h d) eqn:Ha; [done|]. destruct Hor. exists d. rewrite (document_of_eq _ _ _ Hp), Hnd. done. }
    unfold insert_before. rewrite (panics_node _ _ _ _ Hp), (panics_node _ _ _ _ Hp), Hal. cbn [negb]. rewrite Hnd. cbn [andb].
    rewrite (panics_bind (ret false) _ h h false) by done.
    assert (Hpos : exists pos, match r with None => ret None | Some r => match position r (n_children np) with None => fail NotFound | Some k => ret (Some k) end end h = (h, Ok pos)).
    { destruct r as [y|]; [|by eexists]. pose proof (Href y eq_refl) as Hin. apply (child_iff h p np y Hp) in Hin. destruct (position_some y (n_children np) Hin) as [k ->]. by eexists. }
    destruct Hpos as [pos Hpos]. rewrite (panics_bind _ _ _ _ _ Hpos).
    assert (Hcsd : check_same_document h p p = Ok tt).
    { unfold check_same_document. rewrite (get_node_some _ _ _ Hp). cbn [rbind]. rewrite Hnd, Hd. cbn [upgrade]. rewrite Had. cbn. by rewrite bool_decide_true. }
    rewrite (panics_read _ tt) by done. rewrite (parent_node_eq h p np Hp Hd3). rewrite (panics_read _ (upgrade h (n_parent np))) by (by apply parent_node_eq).
    destruct (upgrade h (n_parent np)) as [q|] eqn:Hu.
    - apply upgrade_some in Hu as (_ & nq & Hq). destruct (in_dec Nat.eq_dec p (n_children nq)) as [Hin|Hin].
      + destruct (remove_live h q p nq HI Hq Hin) as [h1 H1]. split; [intros _ q' [= <-]; by apply (child_iff h q nq)|]. intros _.
        rewrite (panics_bind _ _ h h1 tt) by (by rewrite (bind_ok _ _ _ _ _ H1)). rewrite bool_decide_true by done. by eexists.
      + split.
        * intros HP. exfalso. revert HP. apply (not_panics _ _ h (Err NotFound)); [|done]. unfold bind at 1. unfold bind at 1. rewrite (remove_child_eq h q p nq HI Hq).
          by rewrite (proj2 (position_none p (n_children nq)) Hin).
        * intros Hch. destruct Hin. apply (child_iff h q nq p Hq). by apply Hch.
    - split; [by intros _ q [=]|]. intros _. rewrite (panics_bind (ret tt) _ h h tt) by done. rewrite bool_decide_true by done. by eexists. }
  split.
  - intros HP. destruct (insert_checks h p c r np nc HI Hp Hc) as [[e He]|(Hper & Hsec & Href)].
    { exfalso. revert HP. by eapply not_panics. }
    destruct (orphaned_dec h p) as [Ho|Ho1]; [apply if_gone; tauto|]. destruct (orphaned_dec h c) as [Ho|Ho2]; [apply if_gone; tauto|].
    destruct (decide (p = c)) as [Heq|Hne].
    + apply if_self; [done..|]. apply Hself; try done. intros (d & Hd & Ha). rewrite (Ho1 d Hd) in Ha. done.
    + exfalso. destruct (insert_returns h p c r np nc HI Hp Hc Hne Ho1 Ho2) as (h' & x & Hx & Hr). revert HP. by eapply not_panics.
  - intros [Hper Hsec Href Ho|Hper Href Heq Hst].
    + assert (Hd : exists d, (document_of h p = Some d \/ document_of h c = Some d) /\ alive h d = false) by (destruct Ho as [(d & ? & ?)|(d & ? & ?)]; eauto).
      destruct Hd as (d & Hd & Ha). exists PUnwrap. by rewrite (insert_gone h p c r d).
    + assert (Hsec : ~ second_element h p c).
      { subst c. intros (H1 & H2 & _). congruence. }
      destruct (orphaned_dec h p) as [(d & Hd & Ha)|Ho1]; [exists PUnwrap; rewrite (insert_gone h p c r d); [done..|by left|done]|].
      apply Hself; try done. intros (d & Hd & Ha). rewrite (Ho1 d Hd) in Ha. done.
Qed.

(** ** Character data *)
Lemma replace_panics E h i n o k x : h_nodes h !! i = Some n -> (o < usize_mod)%N -> (k < usize_mod)%N ->
  panics (replace_data E i o k x) h <-> edit_faulty E h i o k.
Proof.
  intros Hn Ho Hk.
  assert (Hiff : panics (replace_data E i o k x) h <-> exists q, replace_value E (n_value n) o k x = Panic q).
  { unfold panics. rewrite (replace_data_eq E h i n) by done. destruct (replace_value E (n_value n) o k x); cbn; naive_solver. }
  rewrite Hiff. clear Hiff.
  assert (Hh : forall v, SpecData.holds h i v <-> n_value n = Some v) by (intros v; split; [intros (m & ? & ?); congruence|by exists n]).
  assert (Hz : SpecData.holds_none h i <-> n_value n = None) by (split; [intros (m & ? & ?); congruence|by exists n]).
  unfold edit_faulty. rewrite Hz. destruct (n_value n) as [v|] eqn:Hv.
  - destruct (N.leb_spec (blen v) o) as [Hle|Hlt].
    { rewrite replace_value_past by done. split; [by intros [q Hq]|]. intros [(_ & [(w & Hw%Hh & Hl)|[Hw _]])|(_ & w & Hw%Hh & Hl & _)]; [|done|]; injection Hw as ->; lia. }
    destruct (N.lt_ge_cases (o + k) usize_mod) as [Hf|Hf].
    + split.
      * intros [q Hq]. right. split; [done|]. exists v. split; [by apply Hh|]. split; [done|].
        destruct (split_at v o) as [[l r]|] eqn:H1; [|left; by apply split_at_none]. destruct (N.leb_spec (blen v) (o + k)) as [Hge|Hlt2].
        -- exfalso. unfold replace_value in Hq. destruct (N.leb_spec (blen v) o); [lia|]. rewrite usize_add_fits in Hq by done. cbn [rbind] in Hq.
           destruct (N.leb_spec (blen v) (o + k)); [|lia]. unfold split_at_res in Hq. rewrite H1 in Hq. done.
        -- right. split; [done|]. apply split_at_none. destruct (split_at v (o + k)) as [[l2 r2]|] eqn:H2; [|done]. exfalso.
           unfold replace_value in Hq. destruct (N.leb_spec (blen v) o); [lia|]. rewrite usize_add_fits in Hq by done. cbn [rbind] in Hq.
           destruct (N.leb_spec (blen v) (o + k)); [lia|]. destruct (N.ltb_spec (o + k) o); [lia|]. unfold split_at_res in Hq. rewrite H2 in Hq. cbn [rbind fst] in Hq.
           destruct (split_at l2 o) as [[a b]|] eqn:K3; [done|]. apply split_at_none in K3. apply K3. apply (boundary_mono v o (o + k) l2 r2 H2); [lia|]. apply split_at_inv in H1 as [-> <-]. by exists l, r.
      * intros [[H _]|(_ & w & Hw%Hh & _ & Hb)]; [lia|]. injection Hw as <-. exists PSlice. by apply replace_value_cut.
    + split; [intros _; left; split; [done|]; left; exists v; split; [by apply Hh|done]|]. intros _. unfold replace_value. destruct (N.leb_spec (blen v) o); [lia|]. unfold usize_add.
      destruct (N.ltb_spec (o + k) usize_mod); [lia|]. destruct (e_checked E); [by eexists|]. cbn [rbind].
      assert (Hm : ((o + k) mod usize_mod = o + k - usize_mod)%N) by (symmetry; apply (N.mod_unique _ _ 1); lia).
      rewrite Hm. destruct (N.leb_spec (blen v) (o + k - usize_mod)); [lia|]. destruct (N.ltb_spec (o + k - usize_mod) o); [by eexists|lia].
  - unfold replace_value, usize_add. split.
    + intros [q Hq]. left. destruct (N.ltb_spec (o + k) usize_mod); [cbn in Hq; by destruct (_ =? _)%N|]. split; [done|]. right. split; [done|].
      destruct (e_checked E); [done|]. cbn [rbind] in Hq. by destruct (_ =? _)%N.
    + intros [(Hf & [(w & Hw%Hh & _)|[_ Hc]])|(_ & w & Hw%Hh & _)]; [done| |done]. destruct (N.ltb_spec (o + k) usize_mod); [lia|]. rewrite Hc. by eexists.
Qed.
Lemma edit_cut E h i o k : (0 < k)%N -> (o + k < usize_mod)%N -> edit_faulty E h i o k <-> cut_fault E h i o k.
Proof.
  intros Hk Hf. unfold edit_faulty, cut_fault. split; (intros [[H _]|H]; [lia|right]).
  - destruct H as (H1 & v & H2). split; [done|]. split; [done|]. by exists v.
  - destruct H as (H1 & _ & v & H2). split; [done|]. by exists v.
Qed.
Lemma delete_panics E h i n o k : h_nodes h !! i = Some n -> (o < usize_mod)%N -> (k < usize_mod)%N ->
  panics (delete_data E i o k) h <-> cut_fault E h i o k.
Proof.
  intros Hn Ho Hk. destruct (N.lt_ge_cases (o + k) usize_mod) as [Hf|Hf].
  - destruct (N.eq_0_gt_0_cases k) as [->|Hk0].
    + split; [intros HP; exfalso; revert HP; eapply not_panics_ok; by apply delete_data_zero|]. intros [[H _]|(_ & H & _)]; lia.
    + rewrite <- edit_cut by done. rewrite <- (replace_panics E h i n o k [] Hn Ho Hk). unfold panics. by rewrite delete_data_eq.
  - unfold delete_data. destruct (e_checked E) eqn:Hc.
    + split; [intros _; left; split; [done|by left]|]. intros _. exists POverflow. unfold bind, lift, usize_add. by destruct (N.ltb_spec (o + k) usize_mod); [lia|].
    + assert (Hu : usize_add false o k = Ok (o + k - usize_mod)%N).
      { unfold usize_add. destruct (N.ltb_spec (o + k) usize_mod); [lia|]. f_equal. symmetry. apply (N.mod_unique _ _ 1); lia. }
      rewrite (panics_read _ _ _ _ Hu). destruct (N.eqb_spec (o + k - usize_mod) o); [lia|]. rewrite (replace_panics E h i n o k [] Hn Ho Hk). unfold edit_faulty, cut_fault.
      split; (intros [[_ H]|[H _]]; [|lia]); left; (split; [done|]).
      * destruct H as [H|[_ H]]; [by right|congruence].
      * destruct H as [H|H]; [congruence|by left].
Qed.

(** ** Splitting *)
Lemma orphaned_same h h' i n n' : h_nodes h !! i = Some n -> h_nodes h' !! i = Some n' -> n_type n' = n_type n -> n_owner n' = n_owner n ->
  (forall d, document_of h i = Some d -> alive h' d = alive h d) -> orphaned h' i <-> orphaned h i.
Proof.
  intros Hn Hn' Ht Ho Ha. assert (Hd : document_of h' i = document_of h i).
  { rewrite (document_of_eq _ _ _ Hn), (document_of_eq _ _ _ Hn'). unfold is_type. by rewrite Ht, Ho. }
  unfold orphaned. rewrite Hd. split; intros (d & H1 & H2); exists d; (split; [done|]); rewrite Ha in * by done; done.
Qed.
Lemma split_tail_panics h i n s : Inv h -> h_nodes h !! i = Some n -> (n_type n = NText \/ n_type n = NCData) ->
  panics (split_tail i s) h <-> (exists p, parent_node h i = Ok (Some p)) /\ orphaned h i.
Proof.
  intros HI Hn Ht. assert (Hna : n_type n <> NAttribute) by (by destruct Ht as [-> | ->]).
  destruct (split_new h i n s HI Hn Ht) as (d & Ho & HI2 & Hnew). unfold split_tail.
  rewrite (panics_node _ _ _ _ Hn), (panics_bind _ _ _ _ _ Hnew). set (h2 := allocd (split_off n s None) h) in *. set (c := h_next h).
  rewrite (panics_bind _ _ h h2 c) by done. pose proof (inv_lt h HI i n Hn) as Hlt.
  assert (Hc2 : h_nodes h2 !! c = Some (split_off n s None)) by (cbn; by rewrite lookup_insert).
  assert (L2 : forall j, j <> c -> h_nodes h2 !! j = h_nodes h !! j) by (intros j Hj; cbn; by rewrite lookup_insert_ne).
  assert (Hi2 : h_nodes h2 !! i = Some n) by (rewrite L2; [done|subst c; lia]).
  assert (Hup : upgrade h2 (n_parent n) = upgrade h (n_parent n)).
  { destruct (n_parent n) as [q|] eqn:Hq; [|done]. destruct (inv_node h HI i n Hn) as (_ & _ & Hpo & _). destruct (Hpo q Hq) as [Hql _].
    unfold upgrade, alive. by rewrite L2 by (subst c; lia). }
  rewrite (panics_read _ (upgrade h2 (n_parent n))) by (by apply parent_node_eq). rewrite Hup, (parent_node_eq h i n Hn Hna).
  destruct (upgrade h (n_parent n)) as [p|] eqn:Hu.
  2:{ split; [|by intros [[p [=]] _]]. intros HP. exfalso. revert HP. by eapply not_panics_ok. }
  apply upgrade_some in Hu as [Hp (np & Hnp)]. assert (Hpc : p <> c) by (apply (inv_lt h HI) in Hnp; subst c; lia).
  assert (Hnp2 : h_nodes h2 !! p = Some np) by (by rewrite L2).
  destruct (inv_node h HI i n Hn) as (_ & How & Hpo & _). destruct (Hpo p Hp) as (Hpl & _ & Hl). destruct (Hl (static np)) as [[G1 G2] _]; [by apply info_some|]. cbn in G1, G2.
  assert (Hnpd : n_type np <> NDocument) by (intros E'; rewrite E' in G1; by destruct Ht as [Ht|Ht]; rewrite Ht in G1).
  assert (Hns : exists r, next_sibling h2 i = Ok r /\ forall x, r = Some x -> child h2 p x).
  { unfold next_sibling. rewrite (get_node_some _ _ _ Hi2). cbn [rbind]. rewrite (proj2 (is_type_false NAttribute n) Hna), Hup.
    assert (Hup' : upgrade h (n_parent n) = Some p) by (apply upgrade_some; eauto). rewrite ?Hup', (get_node_some _ _ _ Hnp2). cbn [rbind].
    destruct (position i (n_children np)) as [k|]; [|by exists None]. eexists. split; [done|]. intros x Hx. apply (child_iff h2 p np x Hnp2). by eapply elem_of_list_In, elem_of_list_lookup_2. }
  destruct Hns as (r & Hns & Hr). rewrite (panics_read _ _ _ _ Hns).
  assert (Hret : panics (do? _ := insert_before p c r in ret c) h2 <-> panics (insert_before p c r) h2).
  { rewrite panics_first. split; [|by left]. intros [?|(h3 & x & _ & [q [=]])]. done. }
  rewrite Hret. rewrite (insert_panics_iff h2 p c r np (split_off n s None) HI2 Hnp2 Hc2).
  assert (Hor : orphaned h2 i <-> orphaned h i).
  { apply (orphaned_same h h2 i n n Hn Hi2 eq_refl eq_refl). intros d' Hd'. rewrite (document_of_eq _ _ _ Hn) in Hd'. assert (E' : is_type NDocument n = false) by (apply is_type_false; by destruct Ht as [-> | ->]).
    rewrite E', Ho in Hd'. injection Hd' as <-. unfold alive. rewrite L2; [done|]. destruct (owner_some h i n HI Hn) as (d' & Hd' & Hlt' & _); [by destruct Ht as [-> | ->]..|].
    subst c. assert (d' = d) by congruence. subst d'. lia. }
  assert (Hdi : document_of h2 i = Some d) by (rewrite (document_of_eq _ _ _ Hi2); assert (E' : is_type NDocument n = false) by (apply is_type_false; by destruct Ht as [-> | ->]); by rewrite E').
  assert (Hdp : document_of h2 p = Some d).
  { rewrite (document_of_eq h2 p np Hnp2). assert (E' : is_type NDocument np = false) by (by apply is_type_false). rewrite E', <- G2 by done. done. }
  assert (Hdc : document_of h2 c = Some d).
  { rewrite (document_of_eq h2 c _ Hc2). assert (E' : is_type NDocument (split_off n s None) = false) by (apply is_type_false; cbn; by destruct Ht as [-> | ->]). rewrite E'. done. }
  split.
  - intros HF. split; [by exists p|]. apply Hor. destruct HF as [_ _ _ Hg|_ _ Heq _]; [|done]. destruct Hg as [(d' & H1 & H2)|(d' & H1 & H2)]; exists d; (split; [done|]); congruence.
  - intros [_ Ho'%Hor]. apply if_gone; [by apply (permitted_iff h2 p c np (split_off n s None))| |done|].
    + intros ((m & Hm & Htm)%node_type_ok & _). congruence.
    + left. destruct Ho' as (d' & H1 & H2). exists d'. split; congruence.
Qed.
Lemma split_panics E h i n o : Inv h -> h_nodes h !! i = Some n -> is_character_data n = true -> (forall d, data h i = Ok (Some d) -> fits d) ->
  panics (DomOps.split E i o) h <-> split_faulty h i o.
Proof.
  intros HI Hn Hcd Hfit.
  assert (Ht : n_type n = NText \/ n_type n = NCData \/ n_type n = NComment) by (unfold is_character_data, is_type, type_eqb in Hcd; destruct (n_type n); auto; done).
  assert (Hh : forall v, SpecData.holds h i v <-> n_value n = Some v) by (intros v; split; [intros (m & ? & ?); congruence|by exists n]).
  assert (Hty : node_type_of h i = Ok (n_type n)) by (apply node_type_ok; eauto).
  assert (Hlen : exists len, length_ h i = Ok len /\ (forall v, n_value n = Some v -> (blen v <= len < usize_mod)%N) /\ (n_value n = None -> len = 0%N)).
  { unfold length_, data in *. rewrite (get_node_some _ _ _ Hn) in *. cbn [rbind] in *. destruct (n_value n) as [v|]; [|by exists 0%N].
    eexists. split; [done|]. split; [|done]. intros w [= <-]. split; [|by apply Hfit]. destruct (_ || _); [|lia]. by apply escaped_blen, escape_escaped. }
  destruct Hlen as (len & Hlen & Hb & Hz).
  assert (Hrest : forall s h1 n1, Inv h1 -> h_nodes h1 !! i = Some n1 -> n_type n1 = n_type n -> parent_node h1 i = parent_node h i -> (orphaned h1 i <-> orphaned h i) ->
     (forall v, SpecData.holds h i v -> (o < blen v)%N \/ (len <= o)%N) -> (forall v, SpecData.holds h i v -> (o < blen v)%N -> boundary v o) ->
     panics (split_tail i s) h1 <-> split_faulty h i o).
  { intros s h1 n1 HI1 Hn1 Ht1 Hp1 Ho1 Hin Hbd. destruct (decide (n_type n = NComment)) as [Hc|Hc].
    - split.
      + intros HP. exfalso. revert HP. apply (not_panics _ _ h1 (Err Syntax)); [|done]. unfold split_tail. rewrite (bind_node _ _ _ _ Hn1), Ht1, Hc. done.
      + intros [v Hv Hl Hnb|t ln p Ht' Hnc _ _ _ _]; [by destruct Hnb; apply Hbd|]. rewrite Hty in Ht'. congruence.
    - rewrite (split_tail_panics h1 i n1 s HI1 Hn1) by (rewrite Ht1; naive_solver). rewrite Hp1, Ho1. split.
      + intros [[p Hp] Ho]. by eapply sf_gone.
      + intros [v Hv Hl Hnb|t ln p Ht' Hnc _ _ Hp Ho]; [by destruct Hnb; apply Hbd|]. eauto. }
  assert (Hbind : panics (DomOps.split E i o) h <-> panics (do? s := (if (len <=? o)%N then ret []
     else
       do? s := lift (fun h => substring_data E h i o (len - o)) in
       do? _ := delete_data E i o (len - o) in
       ret s) in split_tail i s) h).
  { unfold DomOps.split. rewrite (panics_node _ _ _ _ Hn), Hcd. cbn [negb]. rewrite (panics_read _ _ _ _ Hlen). done. }
  rewrite Hbind. destruct (N.leb_spec len o) as [Hle|Hlt].
  { rewrite (panics_bind (ret []) _ h h []) by done. apply (Hrest [] h n); try done; [by right|]. intros v Hv%Hh Hl. pose proof (Hb v Hv). lia. }
  destruct (n_value n) as [v|] eqn:Hv; [|rewrite Hz in Hlt by done; lia]. pose proof (Hb v eq_refl) as [Hb1 Hb2].
  assert (Hhv : SpecData.holds h i v) by (by apply Hh).
  destruct (N.leb_spec (blen v) o) as [Hvo|Hvo].
  { split.
    - intros HP. exfalso. revert HP. apply (not_panics _ _ h (Err IndexSize)); [|done]. unfold bind, lift. rewrite (substring_past E h i v) by (done || lia). done.
    - intros [w Hw%Hh Hl _|t ln p _ _ Hln Hin _ _]; [injection Hw as <-; lia|]. rewrite Hlen in Hln. injection Hln as <-. destruct (Hin v Hhv); lia. }
  destruct (split_at v o) as [[l m]|] eqn:Hs.
  - apply split_at_inv in Hs as [-> <-]. rewrite blen_app in *. assert (Hm : m <> []) by (intros ->; cbn in *; lia).
    assert (Hd : (do? s := lift (fun h => substring_data E h i (blen l) (len - blen l)) in do? _ := delete_data E i (blen l) (len - blen l) in ret s) h = (upd i (set_value (Some l) n) h, Ok m)).
    { rewrite (bind_read _ _ _ _ (substring_clip E h i l m (len - blen l) Hhv Hm ltac:(lia) ltac:(lia))).
      assert (Hdel : delete_data E i (blen l) (len - blen l) h = (upd i (set_value (Some l) n) h, Ok tt)).
      { rewrite delete_data_eq by lia. rewrite (replace_data_eq E h i n) by done. rewrite Hv. rewrite replace_value_clip by (done || lia). by rewrite app_nil_r. }
      by rewrite (bind_ok _ _ _ _ _ Hdel). }
    rewrite (panics_bind _ _ _ _ _ Hd). apply (Hrest m _ (set_value (Some l) n)).
    + by apply upd_value_inv.
    + by rewrite lookup_upd.
    + done.
    + assert (Hna : n_type n <> NAttribute) by (naive_solver congruence). rewrite (parent_node_eq h i n Hn Hna), (parent_node_eq _ i (set_value (Some l) n)); [|by rewrite lookup_upd|done].
      cbn [n_parent set_value]. f_equal. destruct (n_parent n) as [q|]; [|done]. cbn. by rewrite (alive_upd h i n).
    + apply (orphaned_same h _ i n (set_value (Some l) n)); [done|by rewrite lookup_upd|done|done|]. intros d _. by apply (alive_upd h i n).
    + intros w Hw%Hh. injection Hw as <-. left. by rewrite blen_app.
    + intros w Hw%Hh _. injection Hw as <-. by exists l, m.
  - apply split_at_none in Hs. split; [intros _; by eapply sf_inside|]. intros _. exists PSlice. unfold bind, lift. rewrite (substring_cut_panics E h i v) by (done || lia || by left). done.
Qed.

(** ** Names *)
Lemma name_then {A} s (k : Name -> M A) h : (forall nm, name_from_str s = Ok nm -> ~ panics (k nm) h) ->
  panics (do? nm := lift (fun _ => name_from_str s) in k nm) h <-> wide_fault s.
Proof.
  intros Hk. rewrite panics_first. split.
  - intros [[q Hq]|(h1 & nm & Hn & HP)]; [apply C10_panics_iff; by exists q|]. unfold lift in Hn. injection Hn as <- Hn. by destruct (Hk nm Hn).
  - intros (q & Hq)%C10_panics_iff. left. by exists q.
Qed.
Lemma name_ns_then {A} u s (k : Name -> M A) h : (forall nm, name_new_ns u s = Ok nm -> ~ panics (k nm) h) ->
  panics (do? nm := lift (fun _ => name_new_ns u s) in k nm) h <-> wide_fault s.
Proof.
  intros Hk. destruct (name_ns_cases u s) as [_ HP]. rewrite panics_first. split.
  - intros [[q Hq]|(h1 & nm & Hn & Hp)]; [apply HP; by exists q|]. unfold lift in Hn. injection Hn as <- Hn. by destruct (Hk nm Hn).
  - intros (q & Hq)%HP. left. by exists q.
Qed.
Lemma handle_then {A} d n (m : M A) h : h_nodes h !! d = Some n -> panics (with_handle d m) h <-> panics m h.
Proof. intros Hn. unfold with_handle. by rewrite (panics_node _ _ _ _ Hn). Qed.
Lemma alloc_no_panic n h : ~ panics (allocM n) h.
Proof. by intros [q Hq]. Qed.
Lemma attr_no_panic d nm v h : ~ panics (do? a := new_attribute d nm v in allocM a) h.
Proof. intros [q Hq]. by destruct v. Qed.
Lemma reserved_not_wide s : str_eqb (to_ascii_lowercase s) XML_PI_RESERVED = true -> ~ wide_fault s.
Proof.
  intros H (q & Hq)%C10_panics_iff. apply str_eqb_true in H. unfold to_ascii_lowercase in H.
  assert (Hl : forall c x, to_lower c = x -> (97 <= x <= 122)%N -> c = x \/ (c + 32 = x)%N).
  { intros c x Hc Hx. unfold to_lower in Hc. destruct (is_ascii_uppercase c); [right|left]; lia. }
  destruct s as [|a [|b [|c [|d s]]]]; try done. cbn in H. injection H as Ha Hb Hc.
  apply Hl in Ha, Hb, Hc; [|done..].
  assert (Ha' : a = 120%N \/ a = 88%N) by lia. assert (Hb' : b = 109%N \/ b = 77%N) by lia. assert (Hc' : c = 108%N \/ c = 76%N) by lia.
  destruct Ha' as [-> | ->], Hb' as [-> | ->], Hc' as [-> | ->]; by vm_compute in Hq.
Qed.
Lemma put_leaf h p c np nc d r : Inv h -> h_nodes h !! p = Some np -> h_nodes h !! c = Some nc -> p <> c -> document_of h p = Some d -> document_of h c = Some d -> alive h d = true ->
  ~ panics (insert_before p c r) h.
Proof.
  intros HI Hp Hc Hne Hdp Hdc Ha. destruct (insert_returns h p c r np nc HI Hp Hc Hne) as (h' & x & Hx & Hr); [congruence..|]. by eapply not_panics.
Qed.
Lemma create_document_panics u q t o h : Inv h -> (forall t', t = Some t' -> exists n, h_nodes h !! t' = Some n /\ n_type n = NDocumentType) ->
  panics (create_document_with_options u q t o) h <-> exists s, q = Some s /\ wide_fault s.
Proof.
  intros HI Ht. unfold create_document_with_options.
  rewrite (panics_bind _ _ h h tt). 2:{ destruct t as [t|]; [|done]. destruct (Ht t eq_refl) as (n & Hn & _). unfold with_handle. by rewrite (bind_node _ _ _ _ Hn). }
  set (d := h_next h). set (h1 := allocd (new_document t o) h). rewrite (panics_bind _ _ h h1 d) by done.
  assert (HI1 : Inv h1).
  { eapply (prim_inv (LAlloc (new_document t o))); [|exact HI]. apply pr_alloc; [|done]. apply fresh_ok; [done|done| |done|done].
    split; [done|]. split; [|by intros k e []]. intros t' Ht'. destruct (Ht t' Ht') as (n & Hn & Htn). exists (static n). split; [by apply info_some|done]. }
  assert (Hd1 : h_nodes h1 !! d = Some (new_document t o)) by (cbn; by rewrite lookup_insert).
  assert (Hrest : forall nm, parsed_name nm -> ~ panics (do? e := (do? e := allocM (new_element d nm) in ret (Some e)) in
     do? _ := match e with Some e => do? _ := append_child d e in ret tt | None => ret tt end in ret d) h1).
  { intros nm Hnm. set (e := h_next h1). set (h2 := allocd (new_element d nm) h1). rewrite (panics_bind _ _ h1 h2 (Some e)) by done.
    assert (HI2 : Inv h2).
    { assert (Hw : wdoc h1 d). { apply doc_wdoc; [done|]. exists (static (new_document t o)). split; [by apply info_some|done]. }
      destruct (t_element h1 d Hw nm Hnm HI1 h2 (Ok e) eq_refl I) as [Hs _]. by eapply isteps_inv. }
    assert (Hd2 : h_nodes h2 !! d = Some (new_document t o)) by (cbn; rewrite lookup_insert_ne by (cbn; subst d; lia); by rewrite lookup_insert).
    assert (He2 : h_nodes h2 !! e = Some (new_element d nm)) by (cbn; by rewrite lookup_insert).
    assert (Hp : ~ panics (append_child d e) h2).
    { apply (put_leaf h2 d e _ _ d None HI2 Hd2 He2); [subst d e; cbn; lia|by rewrite (document_of_eq _ _ _ Hd2)|by rewrite (document_of_eq _ _ _ He2)|]. apply alive_true. eauto. }
    rewrite panics_first. intros [HP|(h3 & x & _ & [y Hy])]; [|done]. rewrite panics_first in HP. destruct HP as [HP|(h3 & x & _ & [y Hy])]; done. }
  destruct q as [q|].
  - assert (Hq : (exists s, Some q = Some s /\ wide_fault s) <-> wide_fault q) by (split; [by intros (s & [= <-] & Hs)|eauto]). rewrite Hq. clear Hq.
    assert (Hass : forall (m : M Name), (forall h', (m h').1 = h') -> (forall nm, (m h1).2 = Ok nm -> parsed_name nm) ->
      panics (do? e := (do? e := with_handle d (do? nm := m in allocM (new_element d nm)) in ret (Some e)) in
        do? _ := match e with Some e => do? _ := append_child d e in ret tt | None => ret tt end in ret d) h1 <-> panics m h1).
    { intros m Hm Hp. unfold panics. unfold bind at 1. unfold bind at 1. unfold with_handle. rewrite (bind_node _ _ _ _ Hd1). unfold bind at 1.
      pose proof (Hm h1) as Hm1. pose proof (Hp) as Hp1. destruct (m h1) as [h' [nm|er|p|]] eqn:Hmm; cbn in Hm1; subst h'.
      - cbn. specialize (Hrest nm (Hp nm eq_refl)). split; [|by intros [y Hy]]. intros HP. destruct Hrest. exact HP.
      - cbn. split; by intros [y Hy].
      - cbn. split; intros [y Hy]; injection Hy as ->; by exists y.
      - cbn. split; by intros [y Hy]. }
    destruct u as [u|].
    + unfold create_element_ns. rewrite (Hass (lift (fun _ => name_new_ns u q))); [|done|intros nm Hnm; eapply parsed_new_ns; exact Hnm]. destruct (name_ns_cases u q) as [_ <-]. done.
    + unfold create_element. rewrite (Hass (lift (fun _ => name_from_str q))); [|done|intros nm Hnm; eapply parsed_from_str; exact Hnm]. by rewrite <- C10_panics_iff.
  - split; [|by intros (s & ? & _)]. intros HP. exfalso. destruct u as [u|]; destruct HP as [y Hy]; done.
Qed.
Lemma attr_set_panics h i n v : Inv h -> h_nodes h !! i = Some n -> n_type n = NAttribute -> panics (attr_set_value i v) h <-> orphaned h i.
Proof.
  intros HI Hn Ht. destruct (owner_some h i n HI Hn) as (d & Ho & Hlt & Hd); [congruence..|].
  assert (Hdi : document_of h i = Some d) by (rewrite (document_of_eq _ _ _ Hn); by rewrite (proj2 (is_type_false NDocument n) ltac:(congruence))).
  unfold attr_set_value, attr_unset_value. set (h1 := upd i (set_children [] n) h).
  rewrite (panics_bind _ _ h h1 tt) by (by rewrite (modifyM_eq _ _ _ _ Hn)).
  assert (HI1 : Inv h1) by (eapply prim_inv; [by apply pr_clear|done]).
  assert (Hn1 : h_nodes h1 !! i = Some (set_children [] n)) by apply lookup_upd.
  assert (Hdn : d <> i \/ alive h d = false) by (left; intros ->; specialize (Hd n Hn); congruence).
  destruct (alive h d) eqn:Ha.
  - destruct Hdn as [Hdn|]; [|done]. apply alive_true in Ha as Ha'. destruct Ha' as [nd Hnd]. assert (Hnd1 : h_nodes h1 !! d = Some nd) by (unfold h1; by rewrite lookup_upd_ne).
    split; [|intros (d' & H1 & H2); congruence]. intros HP. exfalso. revert HP.
    rewrite (panics_read _ d). 2:{ unfold owner_document. rewrite (get_node_some _ _ _ Hn1). cbn [rbind n_owner set_children]. rewrite Ho. cbn. assert (Ha1 : alive h1 d = true) by (apply alive_true; eauto). by rewrite Ha1. }
    rewrite (panics_node _ _ _ _ Hnd1). rewrite (proj2 (is_type_true NDocument nd)) by (by apply Hd). cbn [negb].
    set (t := h_next h1). set (h2 := allocd (new_text d v) h1). rewrite (panics_bind _ _ h1 h2 t) by done.
    assert (HI2 : Inv h2).
    { assert (Hw : wdoc h1 d). { apply doc_wdoc; [done|]. exists (static nd). split; [by apply info_some|by apply Hd]. }
      destruct (t_text h1 d Hw v HI1 h2 (Ok t) eq_refl I) as [Hs _]. by eapply isteps_inv. }
    pose proof (inv_lt h HI i n Hn) as Hli.
    assert (L2 : forall j, j <> t -> h_nodes h2 !! j = h_nodes h1 !! j) by (intros j Hj; cbn; by rewrite lookup_insert_ne).
    assert (Ht1 : i <> t /\ d <> t) by (subst t; cbn; lia). destruct Ht1 as [Hit Hdt].
    assert (Hp : ~ panics (append_child i t) h2).
    { apply (put_leaf h2 i t (set_children [] n) (new_text d v) d None HI2); [by rewrite L2|cbn; by rewrite lookup_insert|done| | |].
      - rewrite (document_of_eq h2 i (set_children [] n)) by (by rewrite L2). by rewrite (proj2 (is_type_false NDocument (set_children [] n)) ltac:(cbn; congruence)).
      - rewrite (document_of_eq h2 t (new_text d v)) by (cbn; by rewrite lookup_insert). done.
      - apply alive_true. exists nd. by rewrite L2. }
    rewrite panics_first. intros [HP|(h3 & x & _ & [y Hy])]; done.
  - split; [intros _; by exists d|]. intros _. exists PUnwrap. unfold bind, lift, owner_document. rewrite (get_node_some _ _ _ Hn1). cbn [rbind n_owner set_children]. rewrite Ho. cbn.
    assert (Ha1 : alive h1 d = false) by (unfold h1; by rewrite (alive_upd h i n)). by rewrite Ha1.
Qed.

(** ** Copying *)
Definition closed (h : heap) : Prop := forall i n c, h_nodes h !! i = Some n -> In c (n_children n) -> alive h c = true.
Lemma clone_no_panic k deep : forall i h, closed h -> (forall j n, h_nodes h !! j = Some n -> (j < h_next h)%nat) -> alive h i = true ->
  ~ panics (clone_rec k deep i) h /\ forall h' j, clone_rec k deep i h = (h', Ok j) ->
    closed h' /\ (forall j n, h_nodes h' !! j = Some n -> (j < h_next h')%nat) /\ alive h' j = true /\ forall x, alive h x = true -> alive h' x = true.
Proof.
  induction k as [|k IH]; intros i h Hc Hlt (n & Hn)%alive_true; cbn [clone_rec].
  { split; [by intros [q Hq]|]. intros h' j Hq. by injection Hq. }
  rewrite (panics_node _ _ _ _ Hn). setoid_rewrite (bind_node _ _ _ _ Hn).
  assert (Hl : forall l h, closed h -> (forall j n, h_nodes h !! j = Some n -> (j < h_next h)%nat) -> (forall c, In c l -> alive h c = true) ->
    ~ panics (mapM_ (clone_rec k deep) l) h /\ forall h' js, mapM_ (clone_rec k deep) l h = (h', Ok js) ->
     closed h' /\ (forall j n, h_nodes h' !! j = Some n -> (j < h_next h')%nat) /\ (forall j, In j js -> alive h' j = true) /\ forall x, alive h x = true -> alive h' x = true).
  { induction l as [|c l IHl]; intros h0 Hc0 Hlt0 Hl0; cbn [mapM_].
    - split; [by intros [q Hq]|]. intros h' js Hq. by injection Hq as <- <-.
    - destruct (IH c h0 Hc0 Hlt0 (Hl0 c (or_introl eq_refl))) as [Hnp Hok]. split.
      + rewrite panics_first. intros [HP|(h1 & j & Hj & HP)]; [done|]. destruct (Hok h1 j Hj) as (Hc1 & Hlt1 & _ & Hm1).
        destruct (IHl h1 Hc1 Hlt1) as [Hnp1 _]; [intros; apply Hm1, Hl0; by right|]. rewrite panics_first in HP. destruct HP as [HP|(h2 & js & _ & [q Hq])]; done.
      + intros h' js H. apply bind_inv in H as [(h1 & j & Hj & H)|(e & _ & [=])]; [|done]. destruct (Hok h1 j Hj) as (Hc1 & Hlt1 & Ha1 & Hm1).
        destruct (IHl h1 Hc1 Hlt1) as [_ Hok1]; [intros; apply Hm1, Hl0; by right|]. apply bind_inv in H as [(h2 & js' & Hjs & H)|(e & _ & [=])]; [|done].
        injection H as <- <-. destruct (Hok1 h2 js' Hjs) as (Hc2 & Hlt2 & Ha2 & Hm2). split; [done|]. split; [done|]. split; [|auto]. intros x [<-|Hx]; auto. }
  destruct deep.
  - destruct (Hl (n_children n) h Hc Hlt) as [Hnp Hok]; [by eauto|]. split.
    + rewrite panics_first. intros [HP|(h1 & js & _ & [q Hq])]; done.
    + intros h' j H. apply bind_inv in H as [(h1 & js & Hjs & H)|(e & _ & [=])]; [|done]. injection H as <- <-. destruct (Hok h1 js Hjs) as (Hc1 & Hlt1 & Ha1 & Hm1).
      assert (Hup : forall m x, alive h1 x = true -> alive (allocd m h1) x = true).
      { intros m x (nx & Hx)%alive_true. apply alive_true. exists nx. cbn. rewrite lookup_insert_ne; [done|]. apply Hlt1 in Hx. lia. }
      split_and!.
      * intros x nx c Hx Hin. cbn in Hx. destruct (decide (x = h_next h1)) as [->|Hxn]; [rewrite lookup_insert in Hx; injection Hx as <-; by apply Hup, Ha1|].
        rewrite lookup_insert_ne in Hx by done. eapply Hup, Hc1; done.
      * intros x nx Hx. cbn in Hx |- *. destruct (decide (x = h_next h1)) as [->|Hxn]; [lia|]. rewrite lookup_insert_ne in Hx by done. apply Hlt1 in Hx. lia.
      * apply alive_true. cbn. rewrite lookup_insert. eauto.
      * intros x Hx. by apply Hup, Hm1.
  - split; [by intros [q Hq]|]. intros h' j H. injection H as <- <-.
    assert (Hup : forall m x, alive h x = true -> alive (allocd m h) x = true).
    { intros m x (nx & Hx)%alive_true. apply alive_true. exists nx. cbn. rewrite lookup_insert_ne; [done|]. apply Hlt in Hx. lia. }
    split_and!.
    + intros x nx c Hx Hin. cbn in Hx. destruct (decide (x = h_next h)) as [->|Hxn]; [rewrite lookup_insert in Hx; by injection Hx as <-|].
      rewrite lookup_insert_ne in Hx by done. eapply Hup, Hc; done.
    + intros x nx Hx. cbn in Hx |- *. destruct (decide (x = h_next h)) as [->|Hxn]; [lia|]. rewrite lookup_insert_ne in Hx by done. apply Hlt in Hx. lia.
    + apply alive_true. cbn. rewrite lookup_insert. eauto.
    + intros x Hx. by apply Hup.
Qed.
Lemma inv_closed h : Inv h -> closed h.
Proof. intros HI i n c Hn Hin. apply alive_true. eapply inv_child_alive; [done|]. exists (n_children n). split; [by apply child_nodes_some|done]. Qed.

(** ** Replacing *)
Lemma cf_replace_inv E h p c o : call_faulty E h (OReplaceChild p c o) ->
  exists h1 r, permitted h p c /\ remove_child p o h = (h1, Ok o) /\ next_sibling h o = Ok r /\ insert_faulty h1 p c r.
Proof. intros HF. inversion HF; subst. eauto 10. Qed.
Lemma cf_set_node_inv E h e a : call_faulty E h (OSetAttributeNode e a) -> node_type_of h a = Ok NAttribute /\ (orphaned h e \/ orphaned h a \/
  exists k, owner_link h a = owner_link h e /\ node_name h a = Ok k /\ special_name h e k /\ (child_nodes h a = Ok [] \/ unreadable E h a)).
Proof. intros HF. inversion HF; subst; (split; [done|]); [tauto|eauto 10]. Qed.
Lemma replace_child_panics E h p c o np nc no : Inv h -> h_nodes h !! p = Some np -> h_nodes h !! c = Some nc -> h_nodes h !! o = Some no ->
  panics (replace_child p c o) h <-> call_faulty E h (OReplaceChild p c o).
Proof.
  intros HI Hp Hc Ho. unfold replace_child. rewrite (panics_node _ _ _ _ Hp), (panics_node _ _ _ _ Hc). destruct (sibling_ok h o no Ho) as [_ [r Hns]].
  destruct (is_child_allowed (n_type np) (n_type nc)) eqn:Hal; cbn [negb].
  2:{ split; [by intros [q Hq]|]. intros (h1 & r' & Hper & _)%cf_replace_inv. apply (permitted_iff h p c np nc Hp Hc) in Hper. congruence. }
  destruct (in_dec Nat.eq_dec o (n_children np)) as [Hin|Hin].
  - rewrite bool_decide_true by (by apply elem_of_list_In). rewrite (panics_read _ _ _ _ Hns). destruct (remove_live h p o np HI Hp Hin) as [h1 H1]. rewrite (panics_bind _ _ _ _ _ H1).
    assert (Hal1 : Inv h1 /\ forall x, alive h1 x = alive h x).
    { rewrite (remove_child_eq h p o np HI Hp) in H1. destruct (position_some o _ Hin) as [k Hk]. rewrite Hk, Ho in H1. injection H1 as <-. unfold removed. split; [by apply remove_inv|]. intros x.
      destruct (decide (o = p)) as [->|Hne]; [|erewrite alive_upd by (rewrite lookup_upd_ne by congruence; exact Ho); by erewrite alive_upd].
      erewrite alive_upd by (apply lookup_upd). by erewrite alive_upd. }
    destruct Hal1 as [HI1 Hal1]. assert (Hp1 : exists np1, h_nodes h1 !! p = Some np1) by (apply alive_true; rewrite Hal1; apply alive_true; eauto). destruct Hp1 as [np1 Hp1].
    assert (Hc1 : exists nc1, h_nodes h1 !! c = Some nc1) by (apply alive_true; rewrite Hal1; apply alive_true; eauto). destruct Hc1 as [nc1 Hc1].
    assert (Hiff : panics (do? _ := insert_before p c r in ret o) h1 <-> panics (insert_before p c r) h1).
    { rewrite panics_first. split; [|by left]. intros [?|(h3 & x & _ & [q Hq])]; done. }
    rewrite Hiff, (insert_panics_iff h1 p c r np1 nc1 HI1 Hp1 Hc1). split.
    + intros HF. eapply cf_replace; [by apply (permitted_iff h p c np nc Hp Hc)|done..].
    + intros (h1' & r' & Hper & Hrm & Hns' & Hif)%cf_replace_inv. rewrite H1 in Hrm. injection Hrm as <-. rewrite Hns in Hns'. by injection Hns' as <-.
  - rewrite bool_decide_false by (by rewrite elem_of_list_In). split; [by intros [q Hq]|]. intros (h1' & r' & Hper & Hrm & Hns' & Hif)%cf_replace_inv. exfalso. rewrite (remove_child_eq h p o np HI Hp) in Hrm. rewrite (proj2 (position_none o (n_children np)) Hin) in Hrm. done.
Qed.

(** ** Attributes *)
Lemma value_panics E h a na : wf_env E -> Inv h -> h_nodes h !! a = Some na ->
  (exists q, (let? v := attr_value E h a in unwrap_opt v) = Panic q) /\ (child_nodes h a = Ok [] \/ unreadable E h a)
  \/ (exists v, (let? v := attr_value E h a in unwrap_opt v) = Ok v) /\ ~ (child_nodes h a = Ok [] \/ unreadable E h a).
Proof.
  intros HE HI Ha. destruct (readable_or_not E h a na HE HI Ha) as [[[v Hv] Hu]|[[q Hq] Hu]].
  - destruct (n_children na) as [|c l] eqn:Hc.
    + left. split; [|left; apply child_nodes_ok; eauto]. exists PUnwrap. unfold attr_value. rewrite (get_node_some _ _ _ Ha). cbn [rbind]. by rewrite Hc.
    + right. split.
      * rewrite Hv. unfold attr_value in Hv. rewrite (get_node_some _ _ _ Ha) in Hv. cbn [rbind] in Hv. rewrite Hc in Hv. cbn [is_nil] in Hv.
        destruct (attr_text h (c :: l)); cbn [rbind] in Hv; try done. destruct (normalize_attribute_value _ _ _ _ _); cbn [rbind] in Hv; try done. injection Hv as <-. cbn. eauto.
      * intros [(n & Hn & Hn')%child_nodes_ok|?]; [congruence|done].
  - left. rewrite Hq. split; [by exists q|by right].
Qed.
Lemma set_node_panics E h e a ne na : wf_env E -> Inv h -> h_nodes h !! e = Some ne -> n_type ne = NElement -> h_nodes h !! a = Some na ->
  panics (set_attribute_node E e a) h <-> call_faulty E h (OSetAttributeNode e a).
Proof.
  intros HE HI He Hte Ha.
  assert (Hcf : call_faulty E h (OSetAttributeNode e a) <-> n_type na = NAttribute /\ (orphaned h e \/ orphaned h a \/
     n_owner na = n_owner ne /\ special_name h e (n_name na) /\ (child_nodes h a = Ok [] \/ unreadable E h a))).
  { split.
    - intros ((n & Hn & Htn)%node_type_ok & HF)%cf_set_node_inv. assert (n = na) by congruence. subst n. split; [done|]. destruct HF as [?|[?|(k & Hoo & Hk & Hsp & Hv)]]; [tauto..|].
      right. right. unfold owner_link in Hoo. rewrite Ha, He in Hoo. split; [done|]. unfold node_name in Hk. rewrite (get_node_some _ _ _ Ha) in Hk. injection Hk as <-. done.
    - intros (Hta & H). assert (Hty : node_type_of h a = Ok NAttribute) by (apply node_type_ok; eauto). destruct H as [H|[H|(H1 & H2 & H3)]]; [apply cf_set_node_gone; tauto..|].
      eapply cf_set_node_bad; [done| | |exact H2|done]; [unfold owner_link; by rewrite Ha, He|]. unfold node_name. by rewrite (get_node_some _ _ _ Ha). }
  rewrite Hcf. clear Hcf. unfold set_attribute_node. rewrite (panics_node _ _ _ _ He), (panics_node _ _ _ _ Ha). rewrite (proj2 (is_type_true NElement ne) Hte).
  destruct (is_type NAttribute na) eqn:Hta; cbn [andb negb].
  2:{ apply is_type_false in Hta. split; [by intros [q Hq]|tauto]. }
  apply is_type_true in Hta.
  destruct (owner_some h e ne HI He) as (d & Hoe & Hltd & Htd); [congruence..|]. destruct (owner_some h a na HI Ha) as (da & Hoa & Hlta & Htda); [congruence..|].
  assert (Hde : document_of h e = Some d) by (rewrite (document_of_eq _ _ _ He); by rewrite (proj2 (is_type_false NDocument ne) ltac:(congruence))).
  assert (Hda : document_of h a = Some da) by (rewrite (document_of_eq _ _ _ Ha); by rewrite (proj2 (is_type_false NDocument na) ltac:(congruence))).
  assert (Hcsd : check_same_document h e a = if alive h d && alive h da then if bool_decide (d = da) then Ok tt else Err WrongDocument else Panic PUnwrap).
  { unfold check_same_document. rewrite (get_node_some _ _ _ He), (get_node_some _ _ _ Ha). cbn [rbind]. rewrite (proj2 (is_type_false NDocument ne) ltac:(congruence)), Hoe, Hoa. cbn.
    destruct (alive h d); cbn; [|done]. destruct (alive h da); cbn; done. }
  destruct (alive h d && alive h da) eqn:Hal.
  2:{ split; [intros _; split; [done|]|intros _; exists PUnwrap; unfold bind, lift; by rewrite Hcsd].
      destruct (alive h d) eqn:H1; [right; left; exists da; by destruct (alive h da)|left; by exists d]. }
  apply andb_true_iff in Hal as [Hal1 Hal2].
  assert (Hno : ~ orphaned h e /\ ~ orphaned h a) by (split; intros (x & H1 & H2); congruence).
  destruct (decide (d = da)) as [<-|Hne].
  2:{ rewrite bool_decide_false in Hcsd by done. split; [|intros (_ & [?|[?|(H1 & _)]]); [tauto..|congruence]]. intros HP. exfalso. revert HP. apply (not_panics _ _ h (Err WrongDocument)); [|done]. unfold bind, lift. by rewrite Hcsd. }
  rewrite bool_decide_true in Hcsd by done. rewrite (panics_read _ _ _ _ Hcsd). clear Hal2 Hlta Htda.
  destruct (attr_ext h a na HI Ha Hta) as (oa & Hxa). destruct (el_ext h e ne HI He Hte) as (attrs & nss & Hxe). apply alive_true in Hal1 as (nd & Hd). specialize (Htd nd Hd).
  destruct (doc_ext h d nd HI Hd Htd) as (decl & dt & m & o & Hxd).
  assert (Hea : e <> a) by congruence. assert (Hde' : d <> e) by congruence. assert (Hda' : d <> a) by congruence.
  rewrite Hxa. set (h1 := upd a (set_ext (XAttribute (Some e)) na) h). rewrite (panics_bind _ _ h h1 tt) by (by rewrite (modifyM_eq _ _ _ _ Ha)).
  assert (V1 : same_view h h1) by (eapply same_view_upd; [done|]; unfold view; cbn; by rewrite Hxa). assert (He1 : h_nodes h1 !! e = Some ne) by (unfold h1; by rewrite lookup_upd_ne).
  assert (Hd1 : h_nodes h1 !! d = Some nd) by (unfold h1; by rewrite lookup_upd_ne). assert (Ha1 : h_nodes h1 !! a = Some (set_ext (XAttribute (Some e)) na)) by apply lookup_upd.
  assert (Hval : forall h', same_view h h' -> attr_value E h' a = attr_value E h a) by (intros h' Hv; by eapply attr_value_view).
  assert (Hgoal : (n_type na = NAttribute /\ (orphaned h e \/ orphaned h a \/ n_owner na = n_owner ne /\ special_name h e (n_name na) /\ (child_nodes h a = Ok [] \/ unreadable E h a))) <->
     (is_namespace_attribute (n_name na) = true \/ is_id_attribute (n_name na) (has_assume_ids o) = true) /\ (child_nodes h a = Ok [] \/ unreadable E h a)).
  { assert (Hsp : special_name h e (n_name na) <-> is_namespace_attribute (n_name na) = true \/ is_id_attribute (n_name na) (has_assume_ids o) = true).
    { unfold special_name. rewrite C12_namespace_attribute. assert (Hid : (exists d0, owner_link h e = Some d0 /\ counts_as_id h d0 (n_name na)) <-> is_id_attribute (n_name na) (has_assume_ids o) = true); [|tauto].
      assert (Hop : opts_of nd = o) by (unfold opts_of; by rewrite Hxd). rewrite <- Hop. rewrite <- (counts_as_id_lax h d nd) by (done || by eauto). unfold owner_link. rewrite He, Hoe. split; [by intros (d0 & [= <-] & ?)|eauto]. }
    rewrite Hsp. split; [intros (_ & [?|[?|(_ & ?)]]); tauto|]. intros [H1 H2]. split; [done|]. right. right. split; [congruence|done]. }
  rewrite Hgoal. clear Hgoal.
  (* after the namespace step *)
  assert (Hfin : forall nss' h2 ne2, same_view h h2 -> h_nodes h2 !! e = Some ne2 -> n_ext ne2 = XElement attrs nss' ->
    h_nodes h2 !! d = Some nd -> h_nodes h2 !! a = Some (set_ext (XAttribute (Some e)) na) ->
    panics (do? ns := getM e in
     match n_ext ns with
     | XElement attrs nss =>
      do? _ := modifyM e (set_ext (XElement (hm_insert (n_name na) a attrs) nss)) in
      do? d := lift (fun h => let? o := owner_document h a in unwrap_opt o) in
      if bool_decide (d = e) then panic_ PBorrow else
      do? nd := getM d in
      let lax := match n_ext nd with XDocument _ _ _ o => has_assume_ids o | _ => false end in
      if is_id_attribute (n_name na) lax then
        match n_ext nd with
        | XDocument decl dt m o =>
            do? v := lift (fun h => let? v := attr_value E h a in unwrap_opt v) in
            match hm_get v m with
            | Some _ => fail Syntax
            | None => do? _ := modifyM d (set_ext (XDocument decl dt (hm_insert v e m) o)) in ret a
            end
        | _ => ret a
        end
      else ret a
     | _ => fail Syntax
     end) h2 <-> is_id_attribute (n_name na) (has_assume_ids o) = true /\ (child_nodes h a = Ok [] \/ unreadable E h a)).
  { intros nss' h2 ne2 V2 He2 Hx2 Hd2 Ha2. rewrite (panics_node _ _ _ _ He2), Hx2.
    set (h3 := upd e (set_ext (XElement (hm_insert (n_name na) a attrs) nss') ne2) h2). rewrite (panics_bind _ _ h2 h3 tt) by (by rewrite (modifyM_eq _ _ _ _ He2)).
    assert (Ha3 : h_nodes h3 !! a = Some (set_ext (XAttribute (Some e)) na)) by (unfold h3; by rewrite lookup_upd_ne).
    assert (Hd3 : h_nodes h3 !! d = Some nd) by (unfold h3; by rewrite lookup_upd_ne by congruence).
    assert (V3 : same_view h h3) by (eapply same_view_trans; [exact V2|eapply same_view_upd; [done|]; unfold view; cbn; by rewrite Hx2]).
    rewrite (panics_read _ d). 2:{ unfold owner_document. rewrite (get_node_some _ _ _ Ha3). cbn [rbind n_owner set_ext]. rewrite Hoa. cbn. assert (Hz : alive h3 d = true) by (apply alive_true; eauto). by rewrite Hz. }
    rewrite !bool_decide_false by done. cbn [orb]. rewrite (panics_node _ _ _ _ Hd3), Hxd. cbn zeta.
    destruct (is_id_attribute (n_name na) (has_assume_ids o)); [|split; [by intros [q Hq]|by intros []]].
    assert (Hv3 : (let? v := attr_value E h3 a in unwrap_opt v) = let? v := attr_value E h a in unwrap_opt v) by (by rewrite (Hval h3 V3)).
    destruct (value_panics E h a na HE HI Ha) as [[[q Hq] Hbad]|[[v Hv] Hok]].
    - split; [done|]. intros _. exists q. unfold bind, lift. by rewrite Hv3, Hq.
    - split; [|tauto]. intros HP. exfalso. revert HP. rewrite (panics_read _ v) by (by rewrite Hv3). destruct (hm_get v m); [by intros [q Hq]|].
      rewrite (panics_bind _ _ _ (upd d (set_ext (XDocument decl dt (hm_insert v e m) o) nd) h3) tt) by (by rewrite (modifyM_eq _ _ _ _ Hd3)). by intros [q Hq]. }
  destruct (is_namespace_attribute (n_name na)) eqn:Hns.
  - assert (Hv1 : (let? v := attr_value E h1 a in unwrap_opt v) = let? v := attr_value E h a in unwrap_opt v) by (by rewrite (Hval h1 V1)).
    destruct (value_panics E h a na HE HI Ha) as [[[q Hq] Hbad]|[[v Hv] Hok]].
    + split; [by auto|]. intros _. exists q. unfold bind at 1. unfold bind at 1, lift at 1. by rewrite Hv1, Hq.
    + assert (Him : exists h2 nss' ne2, (do? v := lift (fun h => let? v := attr_value E h a in unwrap_opt v) in insert_mapping e (nm_prefix (n_name na)) v) h1 = (h2, Ok tt) /\
         same_view h h2 /\ h_nodes h2 !! e = Some ne2 /\ n_ext ne2 = XElement attrs nss' /\
         h_nodes h2 !! d = Some nd /\ h_nodes h2 !! a = Some (set_ext (XAttribute (Some e)) na)).
      { rewrite (bind_read _ v) by (by rewrite Hv1). unfold insert_mapping. destruct (add_namespaces_ok h1 e ne He1) as [b Hb]. rewrite (bind_read _ _ _ _ Hb).
        destruct b; cbn [negb]; [|exists h1, nss, ne; by split_and!]. rewrite (bind_node _ _ _ _ He1), (proj2 (is_type_true NElement ne) Hte), Hxe, (modifyM_eq _ _ _ _ He1).
        eexists _, _, _. split; [done|]. split; [eapply same_view_trans; [exact V1|eapply same_view_upd; [done|]; unfold view; cbn; by rewrite Hxe]|]. split; [apply lookup_upd|]. split; [done|].
        by rewrite !lookup_upd_ne by congruence. }
      destruct Him as (h2 & nss' & ne2 & Him & V2 & He2 & Hx2 & Hd2 & Ha2). rewrite (panics_bind _ _ _ _ _ Him).
      rewrite (Hfin nss' h2 ne2 V2 He2 Hx2 Hd2 Ha2). tauto.
  - rewrite (panics_bind (ret tt) _ h1 h1 tt) by done. rewrite (Hfin nss h1 ne V1 He1 Hxe Hd1 Ha1). naive_solver.
Qed.
Lemma stored_fun h a r1 r2 : stored_text h a r1 -> stored_text h a r2 -> r1 = r2.
Proof.
  intros (n & p1 & Hn & _ & H1 & ->) (n' & p2 & Hn' & _ & H2 & ->). assert (n' = n) by congruence. subst n'. f_equal. revert p2 H2.
  induction H1 as [|c x l p1 (m & Hm & Hx) _ IH]; intros p2 H2; inversion H2 as [|? y ? p3 (m' & Hm' & Hy) H3]; subst; [done|]. f_equal; [|by apply IH].
  assert (m' = m) by congruence. subst m'. destruct Hx as [(Ht & ->)|(Ht1 & Ht2 & ->)], Hy as [(Ht' & ->)|(Ht1' & Ht2' & ->)]; tauto || naive_solver.
Qed.
Lemma set_new_panics E h e ne k v : wf_env E -> Inv h -> h_nodes h !! e = Some ne -> n_type ne = NElement -> parsed_name k ->
  panics (set_new_attribute E e k v) h <-> orphaned h e \/ special_name h e k /\ bad_value E v.
Proof.
  intros HE HI He Hte Hk. destruct (owner_some h e ne HI He) as (d & Hoe & Hltd & Htd); [congruence..|]. pose proof (inv_lt h HI e ne He) as Hlte.
  assert (Hde : document_of h e = Some d) by (rewrite (document_of_eq _ _ _ He); by rewrite (proj2 (is_type_false NDocument ne) ltac:(congruence))).
  unfold set_new_attribute. rewrite (panics_node _ _ _ _ He). rewrite (panics_read _ d) by (by rewrite Hoe).
  set (t := h_next h). set (a := S t). set (na := mkNode NAttribute k None None (Some d) [t] (XAttribute None)).
  set (h1 := allocd (new_text d v) h). set (h2 := allocd na h1).
  rewrite (panics_bind (new_attribute d k (Some v)) _ h h1 na) by done. rewrite (panics_bind (allocM na) _ h1 h2 a) by done.
  assert (HI2 : Inv h2).
  { assert (Hw : wdoc h d) by (split; [done|]; intros s (nd & Hnd & <-)%info_inv; by apply Htd).
    destruct (t_attr h d Hw k (Some v) Hk HI h2 (Ok a) eq_refl I) as [Hs _]. by eapply isteps_inv. }
  assert (L2 : forall j, (j < t)%nat -> h_nodes h2 !! j = h_nodes h !! j) by (intros j Hj; cbn; by rewrite !lookup_insert_ne by (subst t; cbn; lia)).
  assert (He2 : h_nodes h2 !! e = Some ne) by (by rewrite L2). assert (Ha2 : h_nodes h2 !! a = Some na) by (cbn; by rewrite lookup_insert).
  assert (Ht2 : h_nodes h2 !! t = Some (new_text d v)) by (cbn; rewrite lookup_insert_ne by (subst t; cbn; lia); by rewrite lookup_insert).
  assert (Hst : stored_text h2 a v).
  { exists na, [v]. split; [done|]. split; [done|]. split; [|cbn; by rewrite app_nil_r]. constructor; [|constructor]. exists (new_text d v). split; [done|]. left. split; [by left|done]. }
  assert (Hun : unreadable E h2 a <-> bad_value E v).
  { split; [intros (raw & p & r & Hr & Heq & Hb)|intros (p & r & Heq & Hb)].
    - rewrite (stored_fun h2 a raw v Hr Hst) in Heq. by exists p, r.
    - by exists v, p, r. }
  assert (Hor : orphaned h2 e <-> orphaned h e).
  { apply (orphaned_same h h2 e ne ne He He2 eq_refl eq_refl). intros d' Hd'. assert (d' = d) by congruence. subst d'. unfold alive. by rewrite L2. }
  assert (Hora : orphaned h2 a <-> orphaned h e).
  { rewrite <- Hor. unfold orphaned. rewrite (document_of_eq _ _ _ Ha2), (document_of_eq _ _ _ He2). rewrite (proj2 (is_type_false NDocument ne) ltac:(congruence)). cbn. by rewrite Hoe. }
  assert (Hsp : special_name h2 e k <-> special_name h e k).
  { unfold special_name, owner_link. rewrite He, He2, Hoe. assert (Hc : counts_as_id h2 d k <-> counts_as_id h d k) by (unfold counts_as_id; by rewrite L2).
    split; (intros [?|(d' & Hd' & Hc')]; [by left|right; exists d'; split; [done|]]); injection Hd' as <-; by apply Hc. }
  assert (Hnx : h_next h1 = a) by done.
  assert (Hiff : panics (do? _ := set_attribute_node E e a in ret tt) h2 <-> panics (set_attribute_node E e a) h2).
  { rewrite panics_first. split; [|by left]. intros [?|(h3 & x & _ & [q Hq])]; done. }
  rewrite Hiff, (set_node_panics E h2 e a ne na HE HI2 He2 Hte Ha2). split.
  - intros (_ & [H|[H|(k' & _ & Hk' & Hs & Hv)]])%cf_set_node_inv; [left; by apply Hor|left; by apply Hora|]. unfold node_name in Hk'. rewrite (get_node_some _ _ _ Ha2) in Hk'. injection Hk' as <-.
    right. split; [by apply Hsp|]. apply Hun. destruct Hv as [(n & Hn & Hn')%child_nodes_ok|?]; [|done]. rewrite Ha2 in Hn. by injection Hn as <-.
  - assert (Hty : node_type_of h2 a = Ok NAttribute) by (apply node_type_ok; by exists na).
    intros [H|[H1 H2]]; [apply cf_set_node_gone; [done|]; left; by apply Hor|]. apply (cf_set_node_bad E h2 e a k); [done|unfold owner_link; by rewrite Ha2, He2|unfold node_name; by rewrite (get_node_some _ _ _ Ha2)|by apply Hsp|right; by apply Hun].
Qed.
Lemma remove_attr_node_ok h e a ne na : Inv h -> h_nodes h !! e = Some ne -> n_type ne = NElement -> h_nodes h !! a = Some na ->
  panics (remove_attribute_node e a) h <-> e = a.
Proof.
  intros HI He Hte Ha. destruct (el_ext h e ne HI He Hte) as (attrs & nss & Hx). unfold remove_attribute_node. rewrite (panics_node _ _ _ _ He), (proj2 (is_type_true NElement ne) Hte), Hx.
  destruct (decide (a = e)) as [->|Hne].
  - rewrite bool_decide_true by done. split; [done|]. intros _. by eexists.
  - rewrite bool_decide_false by done. split; [|congruence]. intros HP. exfalso. revert HP. rewrite (panics_node _ _ _ _ Ha).
    set (h1 := upd e (set_ext (XElement (hm_remove (n_name na) attrs) nss) ne) h). unfold panics. unfold bind at 1. rewrite (modifyM_eq _ _ _ _ He). fold h1. unfold bind. rewrite (modifyM_eq a _ na) by (unfold h1; by rewrite lookup_upd_ne by congruence). by intros [q Hq].
Qed.
Lemma remove_attr_panics E h e ne (r : heap -> res (option id)) P : wf_env E -> Inv h -> h_nodes h !! e = Some ne -> n_type ne = NElement ->
  (exists p, r h = Panic p) /\ P \/ (exists a, r h = Ok a) /\ ~ P -> (forall a, r h = Ok (Some a) -> exists na, h_nodes h !! a = Some na /\ n_type na = NAttribute) ->
  panics (do? a := lift r in match a with None => ret tt | Some a => do? _ := remove_attribute_node e a in ret tt end) h <-> P.
Proof.
  intros HE HI He Hte Hr Ha. destruct Hr as [[[p Hp] HP]|[[o Ho] HP]].
  - split; [done|]. intros _. exists p. unfold bind, lift. by rewrite Hp.
  - split; [|done]. intros H. exfalso. revert H. rewrite (panics_read _ _ _ _ Ho). destruct o as [a|]; [|by intros [q Hq]]. destruct (Ha a Ho) as (na & Hna & Hta).
    rewrite panics_first. intros [H|(h1 & x & _ & [q Hq])]; [|done]. apply (remove_attr_node_ok h e a ne na HI He Hte Hna) in H. congruence.
Qed.
