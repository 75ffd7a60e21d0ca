(** * ProofWildSteps: what each call does to the heap, without assuming typed calls *)
From Coq Require Import Lia.
From Verif Require Import SpecWild SpecName ProofText ProofName ProofInv ProofSteps ProofWildInv.

(** ** Sequences of steps *)
Definition wisteps (L : lab -> Prop) : heap -> heap -> Prop := rtc (fun h h' => exists l, L l /\ wprim l h h').
Lemma wisteps_inv L h h' : wisteps L h h' -> WInv h -> WInv h'.
Proof. intros H. induction H as [|h1 h2 h3 (l & _ & Hp) _ IH]; [done|]. intros HI. apply IH. by eapply wprim_inv. Qed.
Lemma wisteps_weaken (L L' : lab -> Prop) h h' : (forall l, L l -> L' l) -> wisteps L h h' -> wisteps L' h h'.
Proof. intros HL. apply rtc_subrel. intros x y (l & Hl & Hp). eauto. Qed.
Lemma wisteps_one (L : lab -> Prop) l h h' : L l -> wprim l h h' -> wisteps L h h'.
Proof. intros HL Hp. apply rtc_once. eauto. Qed.
Lemma wisteps_nil L h : wisteps L h h. Proof. apply rtc_refl. Qed.
Lemma wisteps_app L h h1 h2 : wisteps L h h1 -> wisteps L h1 h2 -> wisteps L h h2.
Proof. apply rtc_transitive. Qed.
(** ** Owner documents *)
Lemma wowner_some h i n : WInv h -> h_nodes h !! i = Some n -> n_type n <> NDocument -> n_type n <> NDocumentType ->
  exists d, n_owner n = Some d /\ (d < h_next h)%nat.
Proof.
  intros HI Hn H1 H2. destruct (winv_node h HI i n Hn) as (_ & Ho & _). unfold wowner_ok in Ho. by destruct (n_type n).
Qed.
Lemma wcsd_ok h p c np nc : WInv h -> h_nodes h !! p = Some np -> h_nodes h !! c = Some nc ->
  n_type nc <> NDocument -> n_type nc <> NDocumentType ->
  check_same_document h p c = Ok tt ->
  (n_type np = NDocument -> n_owner nc = Some p) /\ (n_type np <> NDocument -> n_owner nc = n_owner np).
Proof.
  intros HI Hp Hc Ht1 Ht2 H. destruct (wowner_some h c nc HI Hc Ht1 Ht2) as (d & Hd & _).
  unfold check_same_document in H. rewrite (get_node_some _ _ _ Hp), (get_node_some _ _ _ Hc) in H. cbn [rbind] in H.
  rewrite Hd in H. destruct (is_type NDocument np) eqn:Hnp.
  - apply is_type_true in Hnp. split; [|done]. intros _. destruct (upgrade h (Some d)) as [d'|] eqn:Hu; [|done].
    apply upgrade_some in Hu as [[= <-] _]. cbn in H. destruct (bool_decide (p = d)) eqn:Hb; [|done].
    apply bool_decide_eq_true in Hb. congruence.
  - apply is_type_false in Hnp. split; [done|]. intros _. destruct (n_owner np) as [a|]; [|done].
    destruct (upgrade h (Some a)) as [a'|] eqn:Hu1; [|done]. apply upgrade_some in Hu1 as [[= <-] _]. cbn in H.
    destruct (alive h d); [|done]. cbn in H. destruct (bool_decide (a = d)) eqn:Hb; [|done].
    apply bool_decide_eq_true in Hb. congruence.
Qed.
Lemma wremove_child_eq h p c np : WInv h -> h_nodes h !! p = Some np ->
  remove_child p c h = match position c (n_children np) with
                       | None => (h, Err NotFound)
                       | Some k => (match h_nodes h !! c with Some nc => removed h p c np nc k | None => h end, Ok c)
                       end.
Proof.
  intros HI Hp. unfold remove_child, bind at 1, getM, lift, get_node. rewrite Hp.
  destruct (position c (n_children np)) as [k|] eqn:Hk; [|done].
  assert (Hin : In c (n_children np)) by (apply position_lookup in Hk as [Hk _]; by eapply elem_of_list_In, elem_of_list_lookup_2).
  destruct (winv_node h HI p np Hp) as (_ & _ & _ & [G4 _] & _). destruct (G4 c Hin) as (Hne & s & Hs & _).
  apply info_inv in Hs as (nc' & Hc & _). rewrite Hc. rewrite (bind_modifyM _ _ np) by done.
  rewrite (bind_modifyM _ _ nc') by (rewrite lookup_upd_ne; congruence). done.
Qed.
Lemma wremove_child_inv h h' p c r : WInv h -> remove_child p c h = (h', r) -> returned r ->
  exists np, h_nodes h !! p = Some np /\
   ((~ In c (n_children np) /\ h' = h /\ r = Err NotFound) \/
    exists nc k, h_nodes h !! c = Some nc /\ position c (n_children np) = Some k /\ p <> c /\
      h' = removed h p c np nc k /\ r = Ok c).
Proof.
  intros HI H Hr. destruct (h_nodes h !! p) as [np|] eqn:Hp.
  2:{ unfold remove_child, bind, getM, lift, get_node in H. rewrite Hp in H. injection H as <- <-. done. }
  exists np. split; [done|]. rewrite (wremove_child_eq h p c np HI Hp) in H.
  destruct (position c (n_children np)) as [k|] eqn:Hk.
  - assert (Hin : In c (n_children np)) by (apply position_lookup in Hk as [Hk' _]; by eapply elem_of_list_In, elem_of_list_lookup_2).
    destruct (winv_node h HI p np Hp) as (_ & _ & _ & [G4 _] & _). destruct (G4 c Hin) as (Hne & s & Hs & _).
    apply info_inv in Hs as (nc & Hc & _). rewrite Hc in H. injection H as <- <-. right. exists nc, k. done.
  - injection H as <- <-. left. by apply position_none in Hk.
Qed.

Lemma winsert_before_inv h h' p c r x : WInv h -> insert_before p c r h = (h', x) -> returned x ->
  exists np nc, h_nodes h !! p = Some np /\ h_nodes h !! c = Some nc /\
  ((exists e, x = Err e /\ h' = h /\ insert_fails h p c r np nc e) \/
   (x = Ok c /\ exists h1 np1 nc1 k,
      taken_out h c nc h1 /\ h_nodes h1 !! p = Some np1 /\ h_nodes h1 !! c = Some nc1 /\ p <> c /\
      h' = attached h1 p c np1 nc1 k /\ (k <= length (n_children np1))%nat /\
      match r with None => k = length (n_children np1) | Some y => position y (n_children np) = Some k end /\
      is_child_allowed (n_type np) (n_type nc) = true /\
      (n_type np = NDocument -> n_owner nc = Some p) /\ (n_type np <> NDocument -> n_owner nc = n_owner np) /\
      (n_type np = NDocument -> n_type nc = NElement ->
         forall y ny, In y (n_children np) -> h_nodes h !! y = Some ny -> n_type ny <> NElement))).
Proof.
  intros HI H Hr. unfold insert_before in H.
  apply bind_getM in H as (np & Hp & H); [|done]. apply bind_getM in H as (nc & Hc & H); [|done].
  exists np, nc. split; [done|]. split; [done|].
  assert (Hal : is_child_allowed (n_type np) (n_type nc) = true \/ is_child_allowed (n_type np) (n_type nc) = false)
    by (destruct is_child_allowed; auto).
  destruct Hal as [Hal|Hal]; rewrite Hal in H; cbn [negb] in H.
  2:{ left. exists HierarchyRequest. injection H as <- <-. split; [done|]. split; [done|]. by apply if_type. }
  destruct (child_type_docs _ _ Hal) as (Hd1 & Hd2 & Hd3 & Hd4).
  (* second element *)
  assert (H2 : (exists e, x = Err e /\ h' = h /\ insert_fails h p c r np nc e) \/
    ((n_type np = NDocument -> n_type nc = NElement ->
         forall y ny, In y (n_children np) -> h_nodes h !! y = Some ny -> n_type ny <> NElement) /\
     bind match r with
             | None => ret None
             | Some r => match position r (n_children np) with
                         | None => fail NotFound
                         | Some k => ret (Some k)
                         end
             end (fun pos =>
      do? _ := lift (fun h => check_same_document h p c) in
      do? parent := lift (fun h => parent_node h c) in
      do? _ := match parent with
               | None => ret tt
               | Some q => do? _ := remove_child q c in ret tt
               end in
      if bool_decide (p = c) then panic_ PBorrow else
      do? _ := modifyM c (fun n => set_owner (if is_type NDocument np then Some p else n_owner np)
                                   (set_parent (Some p) n)) in
      do? _ := insert_or_append p c pos in
      ret c) h = (h', x))).
  { assert (Hfrag : is_type NDocumentFragment nc = false) by (by apply is_type_false).
    rewrite Hfrag in H.
    destruct (is_type NDocument np && is_type NElement nc) eqn:Hde.
    - apply andb_true_iff in Hde as [Hn%is_type_true He%is_type_true].
      apply bind_lift in H as [(b & Hb & H)|(e & He' & _)]; [| |done].
      + destruct b.
        * left. exists HierarchyRequest. injection H as <- <-. split; [done|]. split; [done|].
          apply any_element_true in Hb as (y & ny & Hy & Hny & Hty). by eapply if_second.
        * right. split; [|done]. intros _ _ y ny Hy Hny. by eapply any_element_false.
      + by apply any_element_err in He'.
    - rewrite bind_ret in H. right. split; [|done]. intros Hn He. apply andb_false_iff in Hde as [Hx|Hx]; apply is_type_false in Hx; done. }
  clear H. destruct H2 as [H2|[Hsec H]]; [by left|].
  (* reference *)
  assert (H2 : (exists e, x = Err e /\ h' = h /\ insert_fails h p c r np nc e) \/
    exists pos, match r with None => pos = None | Some y => exists k, pos = Some k /\ position y (n_children np) = Some k end /\
     bind (lift (fun h => check_same_document h p c)) (fun _ =>
      do? parent := lift (fun h => parent_node h c) in
      do? _ := match parent with
               | None => ret tt
               | Some q => do? _ := remove_child q c in ret tt
               end in
      if bool_decide (p = c) then panic_ PBorrow else
      do? _ := modifyM c (fun n => set_owner (if is_type NDocument np then Some p else n_owner np)
                                   (set_parent (Some p) n)) in
      do? _ := insert_or_append p c pos in
      ret c) h = (h', x)).
  { destruct r as [y|].
    - destruct (position y (n_children np)) as [k|] eqn:Hk.
      + right. exists (Some k). split; [eauto|]. by rewrite bind_ret in H.
      + left. exists NotFound. injection H as <- <-. split; [done|]. split; [done|]. eapply if_ref; [done|exact Hsec|done|]. by apply position_none.
    - right. exists None. split; [done|]. by rewrite bind_ret in H. }
  clear H. destruct H2 as [H2|(pos & Hpos & H)]; [by left|].
  assert (Href : forall x, r = Some x -> In x (n_children np)).
  { intros y ->. destruct Hpos as (k & _ & Hk). apply position_lookup in Hk as [Hk _]. by eapply elem_of_list_In, elem_of_list_lookup_2. }
  (* same document *)
  apply bind_lift in H as [([] & Hcsd & H)|(e & He & -> & ->)]; [| |done].
  2:{ left. exists e. split; [done|]. split; [done|]. pose proof (csd_err _ _ _ _ He) as ->. by apply if_doc. }
  destruct (wcsd_ok h p c np nc HI Hp Hc Hd1 Hd2 Hcsd) as [Ho1 Ho2].
  (* take out *)
  assert (Hpar : parent_node h c = Ok (upgrade h (n_parent nc))).
  { unfold parent_node. rewrite (get_node_some _ _ _ Hc). cbn [rbind]. assert (Ht : is_type NAttribute nc = false) by (by apply is_type_false).
    by rewrite Ht. }
  apply bind_lift in H as [(par & Hpar' & H)|(e & He & _)]; [| congruence|done].
  rewrite Hpar in Hpar'. injection Hpar' as <-.
  assert (H2 : (exists e, x = Err e /\ h' = h /\ insert_fails h p c r np nc e) \/
    exists h1, taken_out h c nc h1 /\
      (if bool_decide (p = c) then panic_ PBorrow else
      do? _ := modifyM c (fun n => set_owner (if is_type NDocument np then Some p else n_owner np)
                                   (set_parent (Some p) n)) in
      do? _ := insert_or_append p c pos in
      ret c) h1 = (h', x)).
  { destruct (upgrade h (n_parent nc)) as [q|] eqn:Hq.
    - rewrite bind_assoc in H. apply bind_inv in H as [(h1 & a & Hrm & H)|(e & Hrm & ->)]; [..|done].
      + apply wremove_child_inv in Hrm as (nq & Hnq & [(_ & _ & ?)|(nc' & k & Hc' & Hk & Hne & -> & _)]); [done| |done|done].
        rewrite Hc in Hc'. injection Hc' as <-. rewrite bind_ret in H. right. eexists. split; [|exact H].
        by eapply to_some.
      + apply wremove_child_inv in Hrm as (nq & Hnq & [(Hni & -> & [= ->])|(nc' & k & _ & _ & _ & _ & ?)]); [|done|done|done].
        left. exists NotFound. split; [done|]. split; [done|]. apply upgrade_some in Hq as [Hq _]. by eapply if_stale.
    - rewrite bind_ret in H. right. exists h. split; [by apply to_none|done]. }
  clear H. destruct H2 as [H2|(h1 & Hto & H)]; [by left|]. right.
  destruct (decide (p = c)) as [->|Hne]; [rewrite bool_decide_true in H by done; injection H as <- <-; done|].
  rewrite bool_decide_false in H by done.
  assert (Hnodes : exists np1 nc1, h_nodes h1 !! p = Some np1 /\ h_nodes h1 !! c = Some nc1 /\
     static np1 = static np /\ static nc1 = static nc /\
     (length (n_children np1) = length (n_children np) \/
      (length (n_children np1) = length (n_children np) - 1)%nat /\ (0 < length (n_children np))%nat)).
  { destruct Hto as [|q nq k Hq Hnq Hqc Hk].
    - exists np, nc. split_and!; [done..|]. by left.
    - unfold removed. destruct (decide (q = p)) as [->|Hqp].
      + assert (nq = np) by congruence. subst nq. exists (set_children (delete k (n_children np)) np), (set_parent None nc).
        rewrite lookup_upd. rewrite lookup_upd_ne by done. rewrite lookup_upd. split_and!; [done..|]. right. cbn [n_children set_children].
        apply position_lookup in Hk as [Hk _]. apply lookup_lt_Some in Hk as Hlt. rewrite length_delete by eauto. lia.
      + exists np, (set_parent None nc). rewrite lookup_upd. rewrite !lookup_upd_ne by done. split_and!; [done..|]. by left. }
  destruct Hnodes as (np1 & nc1 & Hp1 & Hc1 & Hsp & Hsc & Hlen).
  rewrite (bind_modifyM _ _ nc1) in H by done.
  assert (Ho : n_owner nc1 = (if is_type NDocument np then Some p else n_owner np)).
  { injection Hsc as _ _ ->. destruct (is_type NDocument np) eqn:Hx; [apply is_type_true in Hx|apply is_type_false in Hx]; auto. }
  rewrite set_owner_same in H by done.
  unfold insert_or_append in H. rewrite bind_assoc in H.
  apply bind_getM in H as (np2 & Hp2 & H); [|done]. rewrite lookup_upd_ne in Hp2 by done.
  rewrite Hp1 in Hp2. injection Hp2 as <-.
  assert (Hl' : forall k, (k <= length (n_children np1))%nat ->
     match r with None => k = length (n_children np1) | Some y => position y (n_children np) = Some k end ->
     h' = attached h1 p c np1 nc1 k -> x = Ok c ->
     x = Ok c /\ exists h1 np1 nc1 k,
      taken_out h c nc h1 /\ h_nodes h1 !! p = Some np1 /\ h_nodes h1 !! c = Some nc1 /\ p <> c /\
      h' = attached h1 p c np1 nc1 k /\ (k <= length (n_children np1))%nat /\
      match r with None => k = length (n_children np1) | Some y => position y (n_children np) = Some k end /\
      is_child_allowed (n_type np) (n_type nc) = true /\
      (n_type np = NDocument -> n_owner nc = Some p) /\ (n_type np <> NDocument -> n_owner nc = n_owner np) /\
      (n_type np = NDocument -> n_type nc = NElement ->
         forall y ny, In y (n_children np) -> h_nodes h !! y = Some ny -> n_type ny <> NElement)).
  { intros k Hk1 Hk2 Hh' Hx. split; [done|]. exists h1, np1, nc1, k. split_and!; try done. }
  destruct r as [y|].
  - destruct Hpos as (k & -> & Hk). unfold vec_insert in H.
    assert (Hkl : (k < length (n_children np))%nat) by (apply position_lookup in Hk as [Hk' _]; by eapply lookup_lt_Some).
    assert (Hle : (k <= length (n_children np1))%nat) by lia.
    destruct (Nat.leb_spec k (length (n_children np1))); [|lia].
    rewrite (bind_modifyM _ _ np1) in H by (by rewrite lookup_upd_ne). injection H as <- <-.
    by apply (Hl' k).
  - subst pos. rewrite (bind_modifyM _ _ np1) in H by (by rewrite lookup_upd_ne). injection H as <- <-.
    apply (Hl' (length (n_children np1))); [lia|done| |done]. unfold attached. f_equal. f_equal.
    by rewrite take_ge, drop_ge by lia.
Qed.

(** ** In terms of steps *)
Lemma wtaken_out_steps h c nc h1 (L : lab -> Prop) : WInv h -> h_nodes h !! c = Some nc -> (forall q, L (LDetach q c)) ->
  taken_out h c nc h1 -> wisteps L h h1.
Proof.
  intros HI Hc HL [|q nq k Hq Hnq Hne Hk]; [apply wisteps_nil|]. eapply wisteps_one; [apply HL|].
  apply upgrade_some in Hq as [Hq _]. by eapply wpr_detach.
Qed.
Lemma wtaken_out_parent h c nc h1 nc1 : WInv h -> h_nodes h !! c = Some nc -> taken_out h c nc h1 -> h_nodes h1 !! c = Some nc1 ->
  upgrade h1 (n_parent nc1) = None /\ n_children nc1 = n_children nc /\ n_value nc1 = n_value nc /\ n_ext nc1 = n_ext nc.
Proof.
  intros HI Hc [Hu|q nq k Hq Hnq Hne Hk] Hc1.
  - assert (nc1 = nc) by congruence. by subst.
  - unfold removed in *. rewrite lookup_upd in Hc1. injection Hc1 as <-. done.
Qed.
Lemma winsert_before_steps h h' p c r x (L : lab -> Prop) : WInv h -> insert_before p c r h = (h', x) -> returned x ->
  (forall q, L (LDetach q c)) -> (forall nc, h_nodes h !! c = Some nc -> L (LAttach p c (is_nil (n_children nc)))) -> wisteps L h h'.
Proof.
  intros HI H Hr HL1 HL2.
  destruct (winsert_before_inv h h' p c r x HI H Hr) as (np & nc & Hp & Hc & [(e & -> & -> & _)|(-> & h1 & np1 & nc1 & k & Hto & Hp1 & Hc1 & Hne & -> & Hk & _ & Hal & Ho1 & Ho2 & Hsec)]);
    [apply wisteps_nil|].
  eapply wisteps_app; [by eapply wtaken_out_steps|].
  destruct (wtaken_out_parent h c nc h1 nc1 HI Hc Hto Hc1) as (Hup & Hch & _).
  destruct (taken_out_children h c nc h1 p np np1 Hc Hp Hp1 Hne Hto) as [Hsp Hsub].
  pose proof (taken_out_info h c nc h1 Hc Hto) as Hinfo.
  assert (Hsc : static nc1 = static nc).
  { pose proof (Hinfo c) as Hi. rewrite (info_some _ _ _ Hc1), (info_some _ _ _ Hc) in Hi. congruence. }
  injection Hsp as Htp _ Hop. injection Hsc as Htc _ Hoc.
  eapply wisteps_one; [apply (HL2 nc Hc)|]. rewrite <- Hch. apply wpr_attach; try done.
  - rewrite Htc. by eapply allowed_can_be_child.
  - unfold link_ok, static. cbn [s_type s_owner]. rewrite Htp, Htc, Hop, Hoc. split; [done|]. auto.
  - rewrite Htp, Hoc. done.
  - rewrite Htp, Htc. intros H1 H2 y s Hy Hs. rewrite Hinfo in Hs. apply info_inv in Hs as (ny & Hny & <-). cbn.
    eapply Hsec; eauto.
Qed.