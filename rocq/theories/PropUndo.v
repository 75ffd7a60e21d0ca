(** * C82: calls that take each other back, and calls made twice *)
From Coq Require Import Lia.
From Verif Require Import SpecUndo SpecData ProofText ProofName ProofInv ProofSteps ProofOps ProofTree ProofInsert ProofUndo PropTree PropInsert PropElem PropNorm PropSplit.

Lemma insert_reachable h h' p c r x : reachable h -> insert_before p c r h = (h', Ok x) -> reachable h'.
Proof.
  intros Hr H. eapply reach_step; [exact Hr|]. instantiate (1 := OInsertBefore p c r). split; [done|]. exists env0, (Ok (Some x)).
  split; [exact wf_env0|]. cbn [exec]. unfold out, bind. by rewrite H.
Qed.
Lemma remove_reachable h h' p c x : reachable h -> remove_child p c h = (h', Ok x) -> reachable h'.
Proof.
  intros Hr H. eapply reach_step; [exact Hr|]. instantiate (1 := ORemoveChild p c). split; [done|]. exists env0, (Ok (Some x)).
  split; [exact wf_env0|]. cbn [exec]. unfold out, bind. by rewrite H.
Qed.

(** What is under [p] may be there. *)
Lemma linked_legal h p c np nc : Inv h -> h_nodes h !! p = Some np -> h_nodes h !! c = Some nc -> n_parent nc = Some p ->
  is_child_allowed (n_type np) (n_type nc) = true /\ n_type nc <> NDocument /\ document_of h p = n_owner nc.
Proof.
  intros HI Hp Hc Hpar. destruct (inv_node h HI c nc Hc) as (_ & _ & Hpo & _). destruct (Hpo p Hpar) as (_ & _ & H).
  destruct (H _ (info_some _ _ _ Hp)) as ([Hal Hown] & Hd). cbn in Hal, Hown, Hd. destruct (child_type_docs _ _ Hal) as (Hcd & _).
  split; [done|]. split; [done|]. rewrite (document_of_eq h p np Hp).
  destruct (is_type NDocument np) eqn:E; [apply is_type_true in E; symmetry; auto|apply is_type_false in E; symmetry; auto].
Qed.
Lemma has_document_alive h c nc d : h_nodes h !! c = Some nc -> has_document h c -> n_owner nc = Some d -> alive h d = true.
Proof.
  intros Hc [d' H] Ho. unfold owner_document in H. rewrite (get_node_some _ _ _ Hc) in H. cbn in H. rewrite Ho in H. cbn in H.
  by destruct (alive h d).
Qed.
Lemma no_second_after h h' q c nq nc nq' nc' k : Inv h -> h_nodes h !! q = Some nq -> h_nodes h !! c = Some nc -> List.NoDup (n_children nq) ->
  position c (n_children nq) = Some k -> (forall i s, info h' i = Some s -> info h i = Some s) ->
  n_type nq' = n_type nq -> n_type nc' = n_type nc -> n_children nq' = delete k (n_children nq) -> no_second h' nq' nc'.
Proof.
  intros HI Hq Hc Hnd Hk Hinfo Htq Htc Hch Hd He y ny Hy Hny Hte. rewrite Htq in Hd. rewrite Htc in He. rewrite Hch in Hy.
  destruct (inv_node h HI q nq Hq) as (_ & _ & _ & [_ H1] & _).
  apply position_lookup in Hk as [Hk _]. rewrite <- NoDup_ListNoDup in Hnd.
  assert (Hyc : y <> c).
  { intros ->. rewrite <- elem_of_list_In in Hy. rewrite delete_take_drop in Hy. rewrite <- (take_drop_middle _ _ _ Hk) in Hnd.
    apply NoDup_app in Hnd as (_ & H2 & [H3 _]%NoDup_cons). apply elem_of_app in Hy as [Hy|Hy]; [|done]. apply (H2 c Hy). by left. }
  assert (Hin : In y (n_children nq)).
  { rewrite delete_take_drop, in_app_iff in Hy. rewrite <- elem_of_list_In. rewrite <- (take_drop_middle _ _ _ Hk). rewrite elem_of_app, elem_of_cons, !elem_of_list_In. tauto. }
  rewrite <- elem_of_list_In in Hin. apply elem_of_list_lookup_1 in Hin as [j Hj].
  assert (j = k); [|subst; congruence].
  eapply (H1 Hd j k y c (static ny) (static nc) Hj Hk); [by apply Hinfo, info_some|by apply info_some|done|done].
Qed.
Lemma info_upd h i n n' : h_nodes h !! i = Some n -> static n' = static n -> forall j, info (upd i n' h) j = info h j.
Proof.
  intros Hi Hs j. unfold info. destruct (decide (j = i)) as [->|Hj]; [rewrite lookup_upd, Hi; cbn; by f_equal|by rewrite lookup_upd_ne].
Qed.
Lemma consistent_child h p l c : Inv h -> consistent_at h p l -> In c l -> exists np nc, h_nodes h !! p = Some np /\ n_children np = l /\
  h_nodes h !! c = Some nc /\ n_parent nc = Some p /\ n_type nc <> NAttribute /\ p <> c.
Proof.
  intros HI ((np & Hp & Hl)%child_nodes_ok & _ & Hpar) Hin. pose proof (Hpar c Hin) as (nc & np' & Hc & Hna & Hpc & _)%parent_node_some.
  exists np, nc. split_and!; try done. destruct (inv_node h HI p np Hp) as (_ & _ & _ & [H4 _] & _). rewrite Hl in H4. by destruct (H4 c Hin) as [? _].
Qed.

Lemma cleared_inv h n nn : Inv h -> h_nodes h !! n = Some nn -> Inv (upd n (set_parent None nn) h).
Proof.
  intros HI Hn. assert (Hi : forall j, info (upd n (set_parent None nn) h) j = info h j) by (by apply (info_upd h n nn)).
  split.
  - intros i m. destruct (decide (i = n)) as [->|Hne]; [intros _; by eapply (inv_lt h HI)|]. rewrite lookup_upd_ne by done. apply (inv_lt h HI).
  - intros i m Hm. cbn [h_next upd]. apply (node_ok_mono (info h) _ (h_next h) (h_next h)); [intros; by rewrite Hi|intros j s; by rewrite Hi|done|].
    destruct (decide (i = n)) as [->|Hne]; [|rewrite lookup_upd_ne in Hm by done; by apply (inv_node h HI)].
    rewrite lookup_upd in Hm. injection Hm as <-. destruct (inv_node h HI n nn Hn) as (H1 & H2 & H3 & H4 & H5). split_and!; try done.
  - intros c nc p np Hc Hpar Hp Ht. destruct (decide (c = n)) as [->|Hcn]; [rewrite lookup_upd in Hc; by injection Hc as <-|].
    rewrite lookup_upd_ne in Hc by done. destruct (decide (p = n)) as [->|Hpn].
    + rewrite lookup_upd in Hp. injection Hp as <-. by apply (inv_parent h HI c nc n nn).
    + rewrite lookup_upd_ne in Hp by done. by apply (inv_parent h HI c nc p np).
Qed.
Lemma cleared_parent h n nn c : h_nodes h !! n = Some nn -> parent_node h n = Ok None -> parent_node (upd n (set_parent None nn) h) c = parent_node h c.
Proof.
  intros Hn Hpn. unfold parent_node, get_node in *. destruct (decide (c = n)) as [->|Hcn].
  - rewrite lookup_upd. rewrite Hn in *. cbn [rbind] in *. rewrite Hpn. cbn. by destruct (is_type _ _).
  - rewrite lookup_upd_ne by done. destruct (h_nodes h !! c) as [nc|]; [|done]. cbn [rbind]. destruct (is_type _ _); [done|].
    f_equal. unfold upgrade. destruct (n_parent nc) as [q|]; [|done]. by rewrite (alive_upd h n nn).
Qed.
Lemma cleared_restored h n nn : h_nodes h !! n = Some nn -> parent_node h n = Ok None -> restored h (upd n (set_parent None nn) h) n.
Proof.
  intros Hn Hpn. split; [split; [done|]; intros i Hi; rewrite lookup_upd_ne by congruence; done|]. exists nn, (set_parent None nn). rewrite lookup_upd.
  split_and!; try done; [by apply cleared_parent|].
  intros Hnone. rewrite (set_parent_same nn None Hnone). apply heap_eq; [done|]. intros i.
  destruct (decide (i = n)) as [->|Hic]; [by rewrite lookup_upd|by rewrite lookup_upd_ne].
Qed.
Lemma cleared_consistent h n nn p l : h_nodes h !! n = Some nn -> parent_node h n = Ok None -> consistent_at h p l -> consistent_at (upd n (set_parent None nn) h) p l.
Proof.
  intros Hn Hpn (Hl & Hnd & Hpar). split.
  - apply child_nodes_ok in Hl as (np & Hp & Hl). apply child_nodes_ok. destruct (decide (p = n)) as [->|Hne].
    + rewrite lookup_upd. exists (set_parent None nn). split; [done|]. cbn. congruence.
    + rewrite lookup_upd_ne by done. eauto.
  - split; [done|]. intros c Hc. rewrite cleared_parent by done. auto.
Qed.

(** ** Insert, remove *)
Lemma taken_back h h1 p c r x : Inv h -> Inv h1 -> parent_node h c = Ok None -> ~ child h p c ->
  insert_before p c r h = (h1, Ok x) -> exists nc, h_nodes h !! c = Some nc /\ remove_child p c h1 = (upd c (set_parent None nc) h, Ok c).
Proof.
  intros HI HI1 Hpn Hnc H.
  destruct (insert_before_inv h h1 p c r _ HI H Logic.I) as (np & nc & Hp & Hc & [(e & ? & _)|([= ->] & h0 & np1 & nc1 & k &
    Hto & Hp1 & Hc1 & Hne & -> & Hk & Hkr & Hal & _)]); [done|].
  destruct (child_type_docs _ _ Hal) as (_ & _ & Hna & _). rewrite (parent_node_eq h c nc Hc Hna) in Hpn. injection Hpn as Hup.
  revert Hp1 Hc1 HI1 H. destruct Hto as [_|q nq kq Hup' _ _ _]; [|congruence]. intros Hp1 Hc1 HI1 H.
  assert (np1 = np) by congruence. assert (nc1 = nc) by congruence. subst np1 nc1. rewrite (child_iff h p np) in Hnc by done.
  assert (Hp' : h_nodes (attached h p c np nc k) !! p = Some (set_children (take k (n_children np) ++ c :: drop k (n_children np)) np)) by apply lookup_upd.
  assert (Hc' : h_nodes (attached h p c np nc k) !! c = Some (set_parent (Some p) nc)) by (unfold attached; rewrite lookup_upd_ne by done; apply lookup_upd).
  assert (Hpos : position c (take k (n_children np) ++ c :: drop k (n_children np)) = Some k).
  { rewrite position_app; [by rewrite take_length_le by done|]. intros Hin. apply Hnc. rewrite <- (take_drop k (n_children np)), in_app_iff. by left. }
  assert (E : removed (attached h p c np nc k) p c (set_children (take k (n_children np) ++ c :: drop k (n_children np)) np) (set_parent (Some p) nc) k
              = upd c (set_parent None nc) h).
  { apply heap_eq; [done|]. intros i. unfold removed. destruct (decide (i = c)) as [->|Hic]; [by rewrite !lookup_upd|]. rewrite !(lookup_upd_ne c) by done.
    destruct (decide (i = p)) as [->|Hip].
    - rewrite lookup_upd, Hp. f_equal. cbn [n_children set_children]. rewrite delete_take_drop.
      rewrite take_app_alt by (by rewrite take_length_le). rewrite <- (take_length_le (n_children np) k) at 2 by done.
      change (c :: drop k (n_children np)) with ([c] ++ drop k (n_children np)). rewrite app_assoc, drop_app_alt by (rewrite app_length; cbn; lia).
      rewrite take_drop. by destruct np.
    - rewrite lookup_upd_ne by done. unfold attached. by rewrite !lookup_upd_ne by done. }
  exists nc. split; [done|]. rewrite (remove_child_eq _ p c _ HI1 Hp'). cbn [n_children set_children]. rewrite Hpos, Hc', E. done.
Qed.
(** A node without a parent, put under a node that does not list it and taken out again. *)
Theorem C82_insert_remove : forall h h1 p c r x, reachable h -> parent_node h c = Ok None -> ~ child h p c ->
  insert_before p c r h = (h1, Ok x) -> exists h2, remove_child p c h1 = (h2, Ok c) /\ restored h h2 c.
Proof.
  intros h h1 p c r x Hr Hpn Hnc H. destruct (taken_back h h1 p c r x) as (nc & Hc & E); try done; [by apply reachable_inv|by eapply reachable_inv, insert_reachable|].
  eexists. split; [exact E|]. by apply cleared_restored.
Qed.
Print Assumptions C82_insert_remove.

(** ** Remove, insert *)
Lemma remove_inv h p c np nc k : Inv h -> h_nodes h !! p = Some np -> h_nodes h !! c = Some nc -> position c (n_children np) = Some k -> Inv (removed h p c np nc k).
Proof. intros HI Hp Hc Hk. eapply prim_inv; [|exact HI]. by apply pr_remove. Qed.
Lemma put_back h p c l1 l2 : Inv h -> consistent_at h p (l1 ++ c :: l2) -> has_document h c ->
  exists h1, remove_child p c h = (h1, Ok c) /\ insert_before p c (head l2) h1 = (h, Ok c).
Proof.
  intros HI Hco Hdoc. pose proof Hco as (Hl & Hnd & _).
  assert (Hin : In c (l1 ++ c :: l2)) by (rewrite in_app_iff; right; by left).
  destruct (consistent_child h p _ c HI Hco Hin) as (np & nc & Hp & Hch & Hc & Hpc & Hna & Hne).
  destruct (NoDup_app_notin _ _ _ Hnd) as [Hn1 Hn2].
  assert (Hk : position c (n_children np) = Some (length l1)) by (rewrite Hch; by apply position_app).
  pose proof (remove_child_eq h p c np HI Hp) as E. rewrite Hk, Hc in E. exists (removed h p c np nc (length l1)). split; [done|].
  pose proof (remove_inv h p c np nc _ HI Hp Hc Hk) as HI1. destruct (linked_legal h p c np nc HI Hp Hc Hpc) as (Hal & Hcd & Hown).
  assert (Hdel : delete (length l1) (n_children np) = l1 ++ l2) by (rewrite Hch; apply delete_mid).
  set (np1 := set_children (l1 ++ l2) np). set (nc1 := set_parent None nc).
  assert (Hp1 : h_nodes (removed h p c np nc (length l1)) !! p = Some np1) by (unfold removed; rewrite lookup_upd_ne by done; rewrite lookup_upd, Hdel; done).
  assert (Hc1 : h_nodes (removed h p c np nc (length l1)) !! c = Some nc1) by apply lookup_upd.
  rewrite (insert_loose _ p c (head l2) np1 nc1 (length l1) HI1 Hp1 Hc1 Hne Hal).
  - f_equal. apply heap_eq; [done|]. intros i. unfold attached. destruct (decide (i = p)) as [->|Hip].
    + rewrite lookup_upd, Hp. f_equal. cbn [n_children np1 set_children]. rewrite place_before, <- Hch. by destruct np.
    + rewrite lookup_upd_ne by done. destruct (decide (i = c)) as [->|Hic].
      * rewrite lookup_upd, Hc. f_equal. unfold nc1. rewrite <- Hpc. by destruct nc.
      * unfold removed. by rewrite !lookup_upd_ne by done.
  - eapply (no_second_after h _ p c np nc np1 nc1 (length l1) HI Hp Hc); try done; [by rewrite Hch|].
    intros i s. unfold removed. rewrite (info_upd _ c nc) by (rewrite ?lookup_upd_ne by done; done). by rewrite (info_upd h p np).
  - rewrite (document_of_eq _ p np1 Hp1), (document_of_eq _ c nc1 Hc1). cbn. assert (is_type NDocument nc1 = false) as -> by (by apply is_type_false).
    rewrite <- Hown, (document_of_eq h p np Hp). done.
  - intros d. rewrite (document_of_eq _ p np1 Hp1). change (is_type NDocument np1) with (is_type NDocument np). change (n_owner np1) with (n_owner np).
    rewrite <- (document_of_eq h p np Hp), Hown. intros Hd. unfold removed. rewrite (alive_upd _ c nc); [|by rewrite lookup_upd_ne].
    rewrite (alive_upd h p np) by done. by eapply has_document_alive.
  - done.
  - cbn. destruct l2 as [|y l2]; cbn; [by rewrite app_nil_r|]. apply position_app. apply NoDup_remove_1 in Hnd. by destruct (NoDup_app_notin _ _ _ Hnd).
Qed.
(** A child taken out and put back before what stood after it: the very same state. *)
Theorem C82_remove_insert : forall h p c l1 l2, reachable h -> consistent_at h p (l1 ++ c :: l2) -> has_document h c ->
  exists h1, remove_child p c h = (h1, Ok c) /\ insert_before p c (head l2) h1 = (h, Ok c).
Proof. intros h p c l1 l2 Hr. apply put_back. by apply reachable_inv. Qed.
Print Assumptions C82_remove_insert.

(** ** Replace, replace *)
Lemma removed_cleared h p o np no k n nn : h_nodes h !! p = Some np -> h_nodes h !! n = Some nn -> p <> n -> o <> n ->
  upd n (set_parent None nn) (removed h p o np no k) = removed (upd n (set_parent None nn) h) p o np no k.
Proof.
  intros Hp Hn Hpn Hon. apply heap_eq; [done|]. intros i. unfold removed.
  destruct (decide (i = n)) as [->|Hin]; [rewrite lookup_upd, !lookup_upd_ne by done; by rewrite lookup_upd|]. rewrite (lookup_upd_ne n) by done.
  destruct (decide (i = o)) as [->|Hio]; [by rewrite !lookup_upd|]. rewrite !(lookup_upd_ne o) by done.
  destruct (decide (i = p)) as [->|Hip]; [by rewrite !lookup_upd|]. by rewrite !lookup_upd_ne by done.
Qed.
Theorem C82_replace_back : forall h h1 p n o x l1 l2, reachable h -> consistent_at h p (l1 ++ o :: l2) -> has_document h o ->
  parent_node h n = Ok None -> ~ child h p n -> replace_child p n o h = (h1, Ok x) ->
  exists h2, replace_child p o n h1 = (h2, Ok n) /\ restored h h2 n.
Proof.
  intros h h1 p n o x l1 l2 Hr Hco Hdoc Hpn Hnc H. pose proof (reachable_inv h Hr) as HI. pose proof Hco as (Hl & Hnd & Hpar).
  assert (Hin : In o (l1 ++ o :: l2)) by (rewrite in_app_iff; right; by left).
  destruct (consistent_child h p _ o HI Hco Hin) as (np & no & Hp & Hch & Ho & Hpo & Hna & Hne).
  destruct (NoDup_app_notin _ _ _ Hnd) as [Hn1 Hn2].
  assert (Hk : position o (n_children np) = Some (length l1)) by (rewrite Hch; by apply position_app).
  destruct (replace_child_inv h h1 p n o _ HI H Logic.I) as (np' & nn & Hp' & Hn & [(_ & ? & _)|[(_ & _ & ? & _)|(_ & _ & next & h' & Hnx & Hrm & [([= ->] & y & Hi)|(e & ? & _)])]]); try done.
  assert (np' = np) by congruence. subst np'.
  destruct (removed_state h h' p o l1 l2 Hr Hco Hrm) as (HI' & Hco' & Hpo' & Hn' & Hpn'). rewrite Hnx in Hn'. injection Hn' as ->.
  pose proof (remove_child_eq h p o np HI Hp) as E. rewrite Hk, Ho, Hrm in E. injection E as ->.
  rewrite (child_iff h p np), Hch in Hnc by done.
  assert (Hon : o <> n) by (intros ->; done).
  assert (Hpn2 : p <> n) by (destruct (insert_ok _ _ _ _ _ _ HI' Hi) as (_ & ? & ? & ? & ? & ? & ? & [? ? ? ? ? ? ? ? ? ? ? ? ? ? ? ? ? ? ?]); done).
  assert (Hr' : reachable (removed h p o np no (length l1))) by (by eapply remove_reachable).
  assert (Hr1 : reachable h1) by (by eapply insert_reachable). pose proof (reachable_inv h1 Hr1) as HI1.
  assert (Hnl : ~ In n (l1 ++ l2)) by (intros G; apply Hnc; rewrite in_app_iff in *; cbn; tauto).
  assert (Hncr : ~ child (removed h p o np no (length l1)) p n).
  { intros (l & G1 & G2). pose proof Hco' as [G3 _]. rewrite G3 in G1. injection G1 as <-. done. }
  destruct (taken_back _ h1 p n (head l2) y HI' HI1) as (nn' & Hnn' & Eback); [by rewrite Hpn'|done|done|].
  assert (nn' = nn) as -> by (unfold removed in Hnn'; rewrite !lookup_upd_ne in Hnn' by done; congruence).
  assert (Hch1 : child_nodes h1 p = Ok (l1 ++ n :: l2)).
  { destruct (insert_children _ h1 p n _ y _ HI' Hco' Hi) as (l0 & k & Hl0 & Hch1 & Hk1). rewrite decide_False in Hl0 by (rewrite Hpn' by done; congruence).
    subst l0. assert (k = length l1) as ->; [|by rewrite place_before in Hch1]. destruct l2 as [|z l2]; cbn in Hk1; [by rewrite app_nil_r in Hk1|].
    rewrite position_app in Hk1; [congruence|]. apply NoDup_remove_1 in Hnd. by destruct (NoDup_app_notin _ _ _ Hnd). }
  assert (Hco1 : consistent_at h1 p (l1 ++ n :: l2)).
  { split; [done|]. split.
    - apply NoDup_ListNoDup. apply NoDup_remove_1 in Hnd. rewrite <- NoDup_ListNoDup in Hnd. apply NoDup_app in Hnd as (G1 & G2 & G3).
      rewrite in_app_iff in Hnl. apply NoDup_app. split; [done|]. split; [|apply NoDup_cons; split; [rewrite elem_of_list_In; tauto|done]].
      intros z Hz [->|Hz']%elem_of_cons; [rewrite elem_of_list_In in Hz; tauto|by apply (G2 z)].
    - intros z Hz. destruct (decide (z = n)) as [->|Hzn]; [by destruct (C30_moves_and_frames _ h1 p n _ _ Hr' Hi) as [G _]|].
      rewrite (insert_parents _ h1 p n _ y z HI' Hi Hzn). destruct Hco' as (_ & _ & G). apply G. rewrite in_app_iff in *. cbn in Hz. intuition congruence. }
  assert (Hnx1 : next_sibling h1 n = Ok (head l2)).
  { rewrite (next_sibling_eq h1 p _ (length l1) n Hco1).
    - rewrite lookup_app_r by lia. replace (S (length l1) - length l1)%nat with 1%nat by lia. by rewrite head_lookup.
    - rewrite lookup_app_r by lia. by rewrite Nat.sub_diag. }
  (* the second replacement *)
  set (hs := upd n (set_parent None nn) h). assert (HIs : Inv hs) by (by apply cleared_inv).
  assert (Hcos : consistent_at hs p (l1 ++ o :: l2)) by (by apply cleared_consistent).
  assert (Hdocs : has_document hs o).
  { destruct Hdoc as [d Hd]. exists d. unfold owner_document, get_node, hs in *. rewrite lookup_upd_ne by done. rewrite Ho in *. cbn [rbind] in *.
    rewrite <- Hd. f_equal. unfold upgrade. destruct (n_owner no) as [d'|]; [|done]. by rewrite (alive_upd h n nn). }
  destruct (put_back hs p o l1 l2 HIs Hcos Hdocs) as (hr & Hrm2 & Hins2).
  assert (Hrms : remove_child p o hs = (removed hs p o np no (length l1), Ok o)).
  { rewrite (remove_child_eq hs p o np HIs) by (unfold hs; by rewrite lookup_upd_ne). rewrite Hk. unfold hs at 1. rewrite lookup_upd_ne by done. by rewrite Ho. }
  rewrite Hrms in Hrm2. injection Hrm2 as <-.
  exists hs. split; [|by apply cleared_restored].
  destruct (linked_legal h p o np no HI Hp Ho Hpo) as (Hal & _).
  apply child_nodes_ok in Hch1 as (np1 & Hp1 & Hch1).
  assert (Ho1 : exists no1, h_nodes h1 !! o = Some no1 /\ n_type no1 = n_type no).
  { destruct (insert_ok _ _ _ _ _ _ HI' Hi) as (_ & ? & ? & ? & ? & ? & ? & [? ? ? ? ? ? ? ? ? ? ? ? ? Hfr ? ? ? ? ?]).
    exists (set_parent None no). split; [|done]. rewrite Hfr; [unfold removed; by rewrite lookup_upd|congruence|done|]. rewrite Hpn' by done. congruence. }
  destruct Ho1 as (no1 & Ho1 & Hto1).
  assert (Htp1 : n_type np1 = n_type np).
  { destruct (insert_ok _ _ _ _ _ _ HI' Hi) as (_ & m & ? & ? & ? & ? & ? & [G ? G' ? ? (G2 & _) ? ? ? ? ? ? ? ? ? ? ? ? ?]).
    rewrite Hp1 in G'. injection G' as <-. rewrite G2. unfold removed in G. rewrite lookup_upd_ne, lookup_upd in G by done. by injection G as <-. }
  unfold replace_child. unfold bind at 1, getM at 1, lift. rewrite (get_node_some _ _ _ Hp1).
  unfold bind at 1, getM, lift. rewrite (get_node_some _ _ _ Ho1), Htp1, Hto1, Hal. cbn [negb].
  rewrite bool_decide_true by (rewrite Hch1, elem_of_list_In, in_app_iff; right; by left).
  unfold bind at 1. rewrite Hnx1. unfold bind at 1. rewrite Eback, removed_cleared by done. unfold bind. fold hs. rewrite Hins2. done.
Qed.
Print Assumptions C82_replace_back.

(** ** Moving to another parent and back *)
Theorem C82_move_back : forall h h1 p q c r x l1 l2, reachable h -> consistent_at h q (l1 ++ c :: l2) -> has_document h c ->
  p <> q -> ~ child h p c -> insert_before p c r h = (h1, Ok x) -> insert_before q c (head l2) h1 = (h, Ok c).
Proof.
  intros h h1 p q c r x l1 l2 Hr Hco Hdoc Hpq Hnc H. pose proof (reachable_inv h Hr) as HI. pose proof Hco as (Hl & Hnd & Hpar).
  pose proof (reachable_inv h1 (insert_reachable _ _ _ _ _ _ Hr H)) as HI1.
  assert (Hin : In c (l1 ++ c :: l2)) by (rewrite in_app_iff; right; by left).
  destruct (consistent_child h q _ c HI Hco Hin) as (nq & nc & Hq & Hch & Hc & Hpc & Hna & Hqc).
  destruct (NoDup_app_notin _ _ _ Hnd) as [Hn1 Hn2].
  assert (Hkq : position c (n_children nq) = Some (length l1)) by (rewrite Hch; by apply position_app).
  assert (Hdel : delete (length l1) (n_children nq) = l1 ++ l2) by (rewrite Hch; apply delete_mid).
  destruct (linked_legal h q c nq nc HI Hq Hc Hpc) as (Halq & Hcd & Hown).
  destruct (insert_before_inv h h1 p c r _ HI H Logic.I) as (np & nc' & Hp & Hc' & [(e & ? & _)|([= ->] & h0 & np1 & nc1 & k &
    Hto & Hp1 & Hc1 & Hne & -> & Hk & Hkr & Hal & _)]); [done|]. assert (nc' = nc) by congruence. subst nc'.
  assert (Hh0 : h0 = removed h q c nq nc (length l1)).
  { destruct Hto as [Hup|q' nq' kq' Hup Hnq' _ Hkq'].
    - rewrite Hpc in Hup. unfold upgrade, alive in Hup. by rewrite Hq in Hup.
    - apply upgrade_some in Hup as [Hq' _]. assert (q' = q) by congruence. subst q'. assert (nq' = nq) by congruence. subst nq'. congruence. }
  subst h0. unfold removed in Hp1, Hc1. rewrite lookup_upd in Hc1. injection Hc1 as <-. rewrite !lookup_upd_ne in Hp1 by done.
  assert (np1 = np) by congruence. subst np1. rewrite (child_iff h p np) in Hnc by done.
  set (h1 := attached (removed h q c nq nc (length l1)) p c np (set_parent None nc) k) in *.
  set (np' := set_children (take k (n_children np) ++ c :: drop k (n_children np)) np). set (nc' := set_parent (Some p) nc). set (nq' := set_children (l1 ++ l2) nq).
  assert (Lp : h_nodes h1 !! p = Some np') by apply lookup_upd.
  assert (Lc : h_nodes h1 !! c = Some nc') by (unfold h1, attached; rewrite lookup_upd_ne by done; by rewrite lookup_upd).
  assert (Lq : h_nodes h1 !! q = Some nq').
  { unfold h1, attached, removed. rewrite lookup_upd_ne by done. rewrite !(lookup_upd_ne c) by done. rewrite lookup_upd, Hdel. done. }
  assert (Lo : forall i, i <> p -> i <> c -> i <> q -> h_nodes h1 !! i = h_nodes h !! i).
  { intros i ???. unfold h1, attached, removed. by rewrite !lookup_upd_ne by done. }
  assert (Hinfo : forall i, info h1 i = info h i).
  { intros i. unfold info. destruct (decide (i = p)) as [->|]; [by rewrite Lp, Hp|]. destruct (decide (i = c)) as [->|]; [by rewrite Lc, Hc|].
    destruct (decide (i = q)) as [->|]; [by rewrite Lq, Hq|]. by rewrite Lo. }
  assert (Hpos : position c (n_children np') = Some k).
  { cbn. rewrite position_app; [by rewrite take_length_le by done|]. intros G. apply Hnc. rewrite <- (take_drop k (n_children np)), in_app_iff. by left. }
  rewrite (insert_linked h1 q c (head l2) nq' nc' p np' k nq' (length l1) HI1 Lq Lc Hqc Halq); try done.
  - f_equal. apply heap_eq; [done|]. intros i. unfold attached, removed. destruct (decide (i = q)) as [->|Hiq].
    + rewrite lookup_upd, Hq. f_equal. cbn [n_children nq' set_children]. rewrite place_before, <- Hch. by destruct nq.
    + rewrite lookup_upd_ne by done. destruct (decide (i = c)) as [->|Hic].
      * rewrite lookup_upd, Hc. f_equal. rewrite <- Hpc. by destruct nc.
      * rewrite !(lookup_upd_ne c) by done. destruct (decide (i = p)) as [->|Hip]; [|by rewrite lookup_upd_ne, Lo by done].
        rewrite lookup_upd, Hp. f_equal. cbn [n_children np' set_children]. rewrite delete_take_drop.
        rewrite take_app_alt by (by rewrite take_length_le). change (c :: drop k (n_children np)) with ([c] ++ drop k (n_children np)).
        rewrite app_assoc, drop_app_alt by (rewrite app_length, take_length_le by done; cbn; lia). rewrite take_drop. by destruct np.
  - eapply (no_second_after h _ q c nq nc nq' nc' (length l1) HI Hq Hc); try done; [by rewrite Hch|]. intros i s. by rewrite Hinfo.
  - rewrite (document_of_eq _ q nq' Lq), (document_of_eq _ c nc' Lc). cbn. assert (is_type NDocument nc' = false) as -> by (by apply is_type_false).
    rewrite <- Hown, (document_of_eq h q nq Hq). done.
  - intros d. rewrite (document_of_eq _ q nq' Lq). change (is_type NDocument nq') with (is_type NDocument nq). change (n_owner nq') with (n_owner nq).
    rewrite <- (document_of_eq h q nq Hq), Hown. intros Hd. pose proof (has_document_alive h c nc d Hc Hdoc Hd) as Ha.
    apply alive_true in Ha as [nd Hnd']. apply alive_true. pose proof (Hinfo d) as Hid. rewrite (info_some _ _ _ Hnd') in Hid. apply info_inv in Hid as (nd' & ? & _). eauto.
  - by rewrite decide_False by done.
  - intros y Hy. cbn. destruct l2 as [|z l2]; [done|]. injection Hy as <-. rewrite in_app_iff. right. by left.
  - cbn. destruct l2 as [|y l2]; cbn; [by rewrite app_nil_r|]. apply position_app. apply NoDup_remove_1 in Hnd. by destruct (NoDup_app_notin _ _ _ Hnd).
Qed.
Print Assumptions C82_move_back.

(** ** Moving within the parent *)
Lemma move_within h p c r np l kq k : Inv h -> consistent_at h p l -> In c l -> has_document h c -> ~ is_root h p c -> h_nodes h !! p = Some np ->
  position c l = Some kq -> (forall y, r = Some y -> In y l) -> place r l (delete kq l) k ->
  insert_before p c r h = (upd p (set_children (take k (delete kq l) ++ c :: drop k (delete kq l)) np) h, Ok c).
Proof.
  intros HI Hco Hin Hdoc Hroot Hp Hkq Hy Hk. destruct (consistent_child h p l c HI Hco Hin) as (np' & nc & Hp' & Hch & Hc & Hpc & Hna & Hne).
  assert (np' = np) by congruence. subst np' l. destruct (linked_legal h p c np nc HI Hp Hc Hpc) as (Hal & Hcd & Hown).
  rewrite (insert_linked h p c r np nc p np kq (set_children (delete kq (n_children np)) np) k HI Hp Hc Hne Hal); try done.
  - f_equal. apply heap_eq; [done|]. intros i. unfold attached, removed. destruct (decide (i = p)) as [->|Hip]; [by rewrite !lookup_upd|].
    rewrite !(lookup_upd_ne p) by done. destruct (decide (i = c)) as [->|Hic]; [|by rewrite !lookup_upd_ne by done].
    rewrite !lookup_upd, Hc. f_equal. rewrite <- Hpc. by destruct nc.
  - intros H1 H2. exfalso. apply Hroot. split; [by apply (type_iff h p np)|by apply (type_iff h c nc)].
  - rewrite Hown, (document_of_eq h c nc Hc). assert (is_type NDocument nc = false) as -> by (by apply is_type_false). done.
  - intros d. rewrite Hown. by eapply has_document_alive.
  - by rewrite decide_True.
Qed.
Lemma upd_same h p np : h_nodes h !! p = Some np -> upd p np h = h.
Proof. intros Hp. apply heap_eq; [done|]. intros i. destruct (decide (i = p)) as [->|]; [by rewrite lookup_upd|by rewrite lookup_upd_ne]. Qed.
Lemma insert_consistent h h1 p c r x l : reachable h -> consistent_at h p l -> insert_before p c r h = (h1, Ok x) -> exists l0 k,
  consistent_at h1 p (take k l0 ++ c :: drop k l0) /\ match r with None => k = length l0 | Some y => position y l = Some k end.
Proof.
  intros Hr Hco H. pose proof (reachable_inv h Hr) as HI. pose proof Hco as (Hl & Hnd & Hpar).
  destruct (insert_children h h1 p c r x l HI Hco H) as (l0 & k & Hl0 & Hch & Hk). exists l0, k. split; [|done].
  assert (G : List.NoDup l0 /\ ~ In c l0 /\ forall y, In y l0 -> In y l).
  { destruct (decide _) as [Hd|Hd].
    - inversion Hl0 as [a b Ha E1 E2]. subst. destruct (NoDup_app_notin _ _ _ Hnd). apply NoDup_remove_1 in Hnd. split; [done|].
      setoid_rewrite in_app_iff. cbn. split; [tauto|]. intros y. tauto.
    - subst. split; [done|]. split; [|done]. intros G. by apply Hd, Hpar. }
  destruct G as (G1 & G2 & G3). split; [done|]. split.
  - apply NoDup_ListNoDup. rewrite <- (take_drop k l0), <- NoDup_ListNoDup in G1. apply NoDup_app in G1 as (A1 & A2 & A3).
    rewrite <- (take_drop k l0), in_app_iff in G2. apply NoDup_app. split; [done|]. split; [|apply NoDup_cons; split; [rewrite elem_of_list_In; tauto|done]].
    intros z Hz [->|Hz']%elem_of_cons; [rewrite elem_of_list_In in Hz; tauto|by apply (A2 z)].
  - intros z Hz. destruct (decide (z = c)) as [->|Hzc]; [by destruct (C30_moves_and_frames _ h1 p c _ _ Hr H) as [? _]|].
    rewrite (insert_parents h h1 p c r x z HI H Hzc). apply Hpar, G3. rewrite <- (take_drop k l0). rewrite in_app_iff in *. cbn in Hz. intuition congruence.
Qed.
Lemma insert_keeps_document h h1 p c r x : Inv h -> insert_before p c r h = (h1, Ok x) -> has_document h c -> has_document h1 c.
Proof.
  intros HI H [d Hd]. exists d. destruct (insert_ok h h1 p c r x HI H) as (_ & np & nc & l0 & k & np' & nc' & [Hp Hc Hp' Hc' Hne Hsp Hsc Hpar Hal _ _ _ _ Hfr Hold _ _ _ _]).
  unfold owner_document in *. rewrite (get_node_some _ _ _ Hc) in Hd. rewrite (get_node_some _ _ _ Hc'). cbn [rbind] in *. destruct Hsc as (_ & _ & _ & _ & -> & _).
  rewrite <- Hd. f_equal. unfold upgrade. destruct (n_owner nc) as [e|]; [|done]. cbn. replace (alive h1 e) with (alive h e); [done|]. unfold alive.
  destruct (decide (e = p)) as [->|]; [by rewrite Hp, Hp'|]. destruct (decide (e = c)) as [->|]; [by rewrite Hc, Hc'|].
  destruct (decide (parent_node h c = Ok (Some e))) as [Hq|Hq]; [|by rewrite Hfr]. destruct (Hold e) as (nq & nq' & -> & -> & _); done.
Qed.
Lemma insert_keeps_root h h1 p c r x : Inv h -> insert_before p c r h = (h1, Ok x) -> is_root h1 p c -> is_root h p c.
Proof.
  intros HI H [H1 H2]. destruct (insert_ok h h1 p c r x HI H) as (_ & np & nc & l0 & k & np' & nc' & [Hp Hc Hp' Hc' Hne (Ht & _) (Ht' & _) ? ? ? ? ? ? ? ? ? ? ? ?]).
  apply (type_iff h1 p np') in H1; [|done]. apply (type_iff h1 c nc') in H2; [|done].
  split; [apply (type_iff h p np); congruence|apply (type_iff h c nc); congruence].
Qed.
(** Appending a second time changes nothing. *)
Theorem C82_append_twice : forall h h1 p c x l, reachable h -> consistent_at h p l -> has_document h c -> ~ is_root h p c ->
  append_child p c h = (h1, Ok x) -> append_child p c h1 = (h1, Ok c).
Proof.
  intros h h1 p c x l Hr Hco Hdoc Hroot H. unfold append_child in *. pose proof (reachable_inv h Hr) as HI.
  pose proof (reachable_inv h1 (insert_reachable _ _ _ _ _ _ Hr H)) as HI1.
  destruct (insert_consistent h h1 p c None x l Hr Hco H) as (l0 & k & Hco1 & ->). rewrite place_end in Hco1. pose proof Hco1 as ((np & Hp & Hch)%child_nodes_ok & Hnd & _).
  destruct (NoDup_app_notin _ _ _ Hnd) as [Hn1 _].
  rewrite (move_within h1 p c None np (l0 ++ [c]) (length l0) (length l0) HI1 Hco1); try done.
  - rewrite delete_mid, app_nil_r, take_ge, drop_ge by done. f_equal. rewrite <- Hch, set_children_same. by apply upd_same.
  - rewrite in_app_iff. right. by left.
  - exact (insert_keeps_document h h1 p c None x HI H Hdoc).
  - intros G. apply Hroot. exact (insert_keeps_root h h1 p c None x HI H G).
  - by apply position_app.
  - cbn. by rewrite delete_mid, app_nil_r.
Qed.
Print Assumptions C82_append_twice.
(** Inserting a child before the sibling it already precedes changes places with it; once more, and it is
    back. *)
Theorem C82_swap : forall h p c y l1 l2, reachable h -> consistent_at h p (l1 ++ c :: y :: l2) -> has_document h c -> ~ is_root h p c ->
  exists h1, insert_before p c (Some y) h = (h1, Ok c) /\ consistent_at h1 p (l1 ++ y :: c :: l2) /\ insert_before p c (Some y) h1 = (h, Ok c).
Proof.
  intros h p c y l1 l2 Hr Hco Hdoc Hroot. pose proof (reachable_inv h Hr) as HI. pose proof Hco as ((np & Hp & Hch)%child_nodes_ok & Hnd & Hpar).
  destruct (NoDup_app_notin _ _ _ Hnd) as [Hn1 Hn2]. cbn in Hn2.
  assert (Hy : ~ In y (l1 ++ [c])). { change (c :: y :: l2) with ([c] ++ y :: l2) in Hnd. rewrite app_assoc in Hnd. by destruct (NoDup_app_notin _ _ _ Hnd). }
  rewrite in_app_iff in Hy. cbn in Hy.
  assert (E1 : insert_before p c (Some y) h = (upd p (set_children (l1 ++ y :: c :: l2) np) h, Ok c)).
  { rewrite (move_within h p c (Some y) np _ (length l1) (S (length l1)) HI Hco); try done.
    - rewrite delete_mid. change (y :: l2) with ([y] ++ l2). rewrite app_assoc. rewrite take_app_alt, drop_app_alt by (rewrite app_length; cbn; lia). by rewrite <- app_assoc.
    - rewrite in_app_iff. right. by left.
    - by apply position_app.
    - intros z [= <-]. rewrite in_app_iff. cbn. tauto.
    - cbn. change (l1 ++ c :: y :: l2) with (l1 ++ [c] ++ y :: l2). rewrite app_assoc, position_app by (rewrite in_app_iff; cbn; tauto). rewrite app_length. cbn. f_equal. lia. }
  set (h1 := upd p (set_children (l1 ++ y :: c :: l2) np) h) in *. exists h1. split; [done|].
  pose proof (reachable_inv h1 (insert_reachable _ _ _ _ _ _ Hr E1)) as HI1.
  assert (Hp1 : h_nodes h1 !! p = Some (set_children (l1 ++ y :: c :: l2) np)) by apply lookup_upd.
  assert (Hperm : forall z, In z (l1 ++ y :: c :: l2) -> In z (l1 ++ c :: y :: l2)) by (intros z; rewrite !in_app_iff; cbn; tauto).
  assert (Hco1 : consistent_at h1 p (l1 ++ y :: c :: l2)).
  { split; [apply child_nodes_ok; eauto|]. split.
    - apply NoDup_ListNoDup. rewrite <- NoDup_ListNoDup in Hnd. eapply NoDup_Permutation_proper; [|exact Hnd]. apply Permutation_app_head. constructor.
    - intros z Hz. destruct (decide (z = c)) as [->|Hzc]; [by destruct (C30_moves_and_frames _ h1 p c _ _ Hr E1) as [? _]|].
      rewrite (insert_parents h h1 p c _ _ z HI E1 Hzc). auto. }
  split; [done|].
  rewrite (move_within h1 p c (Some y) (set_children (l1 ++ y :: c :: l2) np) _ (S (length l1)) (length l1) HI1 Hco1); try done.
  - f_equal. apply heap_eq; [done|]. intros i. unfold h1. destruct (decide (i = p)) as [->|Hip]; [|by rewrite !lookup_upd_ne by done].
    rewrite lookup_upd, Hp. f_equal. change (y :: c :: l2) with ([y] ++ c :: l2). rewrite app_assoc. replace (S (length l1)) with (length (l1 ++ [y])) by (rewrite app_length; cbn; lia).
    rewrite delete_mid, <- app_assoc. rewrite place_before. cbn [app]. rewrite <- Hch. by destruct np.
  - rewrite in_app_iff. cbn. tauto.
  - exact (insert_keeps_document h h1 p c _ _ HI E1 Hdoc).
  - intros G. apply Hroot. exact (insert_keeps_root h h1 p c _ _ HI E1 G).
  - change (l1 ++ y :: c :: l2) with (l1 ++ [y] ++ c :: l2). rewrite app_assoc, position_app; [rewrite app_length; cbn; f_equal; lia|]. rewrite in_app_iff. cbn. intros [?|[->|[]]]; tauto.
  - intros z [= <-]. rewrite in_app_iff. cbn. tauto.
  - cbn. apply position_app. tauto.
Qed.
Print Assumptions C82_swap.

(** ** Split, normalize *)
(** The children read the same as before, and they are tidy. *)
Theorem C82_split_normalize : forall E h i n v o l r p l1 l2, wf_env E -> reachable h -> h_nodes h !! i = Some n -> n_type n = NText ->
  n_value n = Some v -> fits (escape v) -> cut NText v o l r -> consistent_at h p (l1 ++ i :: l2) -> has_document h i ->
  exists h1 h2 l', DomOps.split E i o h = (h1, Ok (h_next h)) /\ child_nodes h1 p = Ok (l1 ++ i :: h_next h :: l2) /\
    normalize p h1 = (h2, Ok tt) /\ consistent_at h2 p l' /\ tidy h2 l' /\ reading h2 l' = reading h (l1 ++ i :: l2).
Proof.
  intros E h i n v o l r p l1 l2 HE Hr Hn Ht Hv Hf Hcut Hco Hdoc. pose proof (reachable_inv h Hr) as HI.
  destruct (C20_in_place E h i n v o l r p l1 l2 Hr Hn (or_introl Ht) Hv Hf) as (h1 & np & np' & Hs & Hi1 & Hnew & Hp & Hp' & Hsp & Hch & Hfr); [by rewrite Ht|done|done|].
  assert (Hr1 : reachable h1).
  { eapply reach_step; [exact Hr|]. instantiate (1 := OSplit i o). split; [cbn; unfold node_type_of, get_node; rewrite Hn; cbn; by rewrite Ht|].
    exists E, (Ok (Some (h_next h))). split; [done|]. cbn [exec]. unfold out, bind. by rewrite Hs. }
  pose proof Hco as (Hl & Hnd & Hpar). set (c := h_next h) in *.
  assert (Hlt : forall x, In x (l1 ++ i :: l2) -> x <> c /\ x <> p /\ exists nx, h_nodes h !! x = Some nx /\ n_parent nx = Some p /\ n_type nx <> NAttribute).
  { intros x Hx. destruct (consistent_child h p _ x HI Hco Hx) as (? & nx & _ & _ & Hx' & ? & ? & ?). pose proof (inv_lt h HI x nx Hx'). split; [subst c; lia|]. eauto 8. }
  assert (Hpc : p <> c) by (pose proof (inv_lt h HI p np Hp); subst c; lia).
  assert (Hco1 : consistent_at h1 p (l1 ++ i :: c :: l2)).
  { split; [done|]. split.
    - apply NoDup_ListNoDup. change (i :: c :: l2) with ([i] ++ c :: l2). rewrite app_assoc. change (l1 ++ i :: l2) with (l1 ++ [i] ++ l2) in Hnd, Hlt.
      rewrite app_assoc in Hnd, Hlt. rewrite <- NoDup_ListNoDup in Hnd. apply NoDup_app in Hnd as (A1 & A2 & A3). apply NoDup_app. split; [done|].
      split; [|apply NoDup_cons; split; [|done]].
      + intros z Hz [->|Hz']%elem_of_cons; [|by apply (A2 z)]. destruct (Hlt c) as [? _]; [|done]. rewrite in_app_iff. left. by apply elem_of_list_In.
      + intros G. destruct (Hlt c) as [? _]; [|done]. rewrite in_app_iff. right. by apply elem_of_list_In.
    - intros x Hx. assert (Hx' : x = c \/ In x (l1 ++ i :: l2)) by (rewrite in_app_iff in *; cbn in *; intuition). apply parent_node_some.
      destruct Hx' as [->|Hx']; [exists (split_off n r (Some p)), np'; cbn; by rewrite Ht|]. destruct (Hlt x Hx') as (B1 & B2 & nx & B3 & B4 & B5).
      destruct (decide (x = i)) as [->|Hxi]; [exists (set_value (Some l) n), np'; assert (nx = n) by congruence; by subst|]. exists nx, np'. by rewrite Hfr. }
  destruct (C38_normalize h1 p _ Hr1 Hco1) as (h2 & l' & Hnm & Hc2 & _ & Ht2 & Hre & _). exists h1, h2, l'. split_and!; try done.
  rewrite Hre. assert (Hti : text_of h1 i = Some l) by (unfold text_of; rewrite Hi1; cbn; by rewrite bool_decide_true).
  assert (Htc : text_of h1 c = Some r) by (unfold text_of; rewrite Hnew; cbn; by rewrite bool_decide_true).
  assert (Hti0 : text_of h i = Some (l ++ r)) by (unfold text_of; rewrite Hn, Hv; cbn; rewrite bool_decide_true by done; by destruct Hcut as [-> _]).
  assert (Hoth : forall x, In x (l1 ++ l2) -> text_of h1 x = text_of h x).
  { intros x Hx. destruct (Hlt x) as (B1 & B2 & _); [rewrite in_app_iff in *; cbn; tauto|]. apply text_of_same, Hfr; [|done|done].
    intros ->. destruct (NoDup_app_notin _ _ _ Hnd). rewrite in_app_iff in Hx. tauto. }
  rewrite (reading_app h1), (reading_app h), (reading_same h h1 l1) by (intros; apply Hoth; rewrite in_app_iff; tauto). f_equal.
  change (i :: c :: l2) with ([i] ++ [c] ++ l2). change (i :: l2) with ([i] ++ l2). rewrite (reading_app h1), (reading_app h1), (reading_app h).
  rewrite (reading_same h h1 l2) by (intros; apply Hoth; rewrite in_app_iff; tauto). rewrite app_assoc. f_equal.
  unfold reading. cbn. rewrite Hti, Htc, Hti0, !app_nil_r. by rewrite map_app.
Qed.
Print Assumptions C82_split_normalize.

(** ** Examples, and what fails *)
Example C82_example : reachable ex_sib /\ consistent_at ex_sib 1 [2; 3; 4; 5] /\ consistent_at ex_sib 6 [7] /\ has_document ex_sib 3 /\ has_document ex_sib 7 /\
  parent_node ex_sib 8 = Ok None /\ ~ child ex_sib 1 8 /\ ~ child ex_sib 1 7 /\ ~ is_root ex_sib 1 3 /\
  children_after 1 (insert_before 1 8 (Some 4)) ex_sib = Ok [2; 3; 8; 4; 5] /\
  children_after 1 (do? _ := insert_before 1 8 (Some 4) in remove_child 1 8) ex_sib = Ok [2; 3; 4; 5] /\
  children_after 1 (do? _ := remove_child 1 3 in insert_before 1 3 (Some 4)) ex_sib = Ok [2; 3; 4; 5] /\
  children_after 1 (replace_child 1 8 3) ex_sib = Ok [2; 8; 4; 5] /\
  children_after 1 (do? _ := replace_child 1 8 3 in replace_child 1 3 8) ex_sib = Ok [2; 3; 4; 5] /\
  children_after 1 (do? _ := insert_before 1 7 (Some 4) in insert_before 6 7 None) ex_sib = Ok [2; 3; 4; 5] /\
  children_after 6 (do? _ := insert_before 1 7 (Some 4) in insert_before 6 7 None) ex_sib = Ok [7] /\
  children_after 1 (do? _ := append_child 1 3 in append_child 1 3) ex_sib = Ok [2; 4; 5; 3] /\
  children_after 1 (insert_before 1 3 (Some 4)) ex_sib = Ok [2; 4; 3; 5] /\
  children_after 1 (do? _ := insert_before 1 3 (Some 4) in insert_before 1 3 (Some 4)) ex_sib = Ok [2; 3; 4; 5].
Proof.
  assert (Hch : forall h p c l, child_nodes h p = Ok l -> existsb (Nat.eqb c) l = false -> ~ child h p c).
  { intros h p c l H1 H2 (l' & H3 & H4). rewrite H1 in H3. injection H3 as <-. assert (existsb (Nat.eqb c) l = true); [|congruence].
    apply existsb_exists. exists c. split; [done|apply Nat.eqb_refl]. }
  split; [exact ex_sib_reachable|]. split; [exact ex_sib_consistent|]. split; [by apply check_consistent; vm_compute|].
  split; [by exists 0; vm_compute|]. split; [by exists 0; vm_compute|]. split; [by vm_compute|].
  split; [by apply (Hch ex_sib 1 8 [2; 3; 4; 5]); vm_compute|]. split; [by apply (Hch ex_sib 1 7 [2; 3; 4; 5]); vm_compute|].
  split; [intros [H _]; by vm_compute in H|]. by vm_compute.
Qed.
Definition ex_split_ops : list op := ex_norm_ops ++ [ONormalize 1].
Definition ex_split : heap := default empty_heap (run env0 ex_split_ops empty_heap).
Example C82_split_example : reachable ex_split /\ cut NText (lit "ab") 1 (lit "a") (lit "b") /\ consistent_at ex_split 1 ([] ++ 3 :: [6; 7; 8]) /\ has_document ex_split 3 /\
  let h1 := (DomOps.split env0 3 1 ex_split).1 in let h2 := (normalize 1 h1).1 in
  node_value ex_split 3 = Ok (Some (lit "ab")) /\ child_nodes h1 1 = Ok [3; 11; 6; 7; 8] /\ node_value h1 3 = Ok (Some (lit "a")) /\
  child_nodes h2 1 = Ok [3; 6; 7; 8] /\ node_value h2 3 = Ok (Some (lit "ab")).
Proof.
  split; [apply (run0_reachable ex_split_ops); by vm_compute|].
  split; [split; [done|]; left; split; [done|]; intros _ c Hc; cbn in Hc; unfold special; intuition (subst; done)|].
  split; [by apply check_consistent; vm_compute|]. split; [by exists 0; vm_compute|]. by vm_compute.
Qed.
(** A child of a deep clone has no parent but is listed: put there again and taken out, the order is another. *)
Theorem C82_listed_refuted : exists h h1 h2 p c, reachable h /\ parent_node h c = Ok None /\ insert_before p c None h = (h1, Ok c) /\
  remove_child p c h1 = (h2, Ok c) /\ child_nodes h p = Ok [9; 10] /\ child_nodes h2 p = Ok [10; 9].
Proof.
  pose (ops := ex_sib_ops ++ [OAppendChild 6 8; OClone true 6]). pose (h := default empty_heap (run env0 ops empty_heap)).
  exists h, (insert_before 11 9 None h).1, (remove_child 11 9 (insert_before 11 9 None h).1).1, 11, 9.
  split; [apply (run0_reachable ops); by vm_compute|]. by vm_compute.
Qed.
Print Assumptions C82_listed_refuted.
(** Within one parent, inserting before the old neighbour does not take a move back. *)
Theorem C82_move_back_refuted : exists h h1 h2 p c y, reachable h /\ consistent_at h p [2; 3; c; y] /\ has_document h c /\
  insert_before p c (Some 2) h = (h1, Ok c) /\ insert_before p c (Some y) h1 = (h2, Ok c) /\ child_nodes h2 p = Ok [2; 3; y; c].
Proof.
  exists ex_sib, (insert_before 1 4 (Some 2) ex_sib).1, (insert_before 1 4 (Some 5) (insert_before 1 4 (Some 2) ex_sib).1).1, 1, 4, 5.
  split; [exact ex_sib_reachable|]. split; [exact ex_sib_consistent|]. split; [by exists 0; vm_compute|]. by vm_compute.
Qed.
Print Assumptions C82_move_back_refuted.
(** The document element cannot be appended a second time. *)
Theorem C82_root_refuted : exists h h1 p c, reachable h /\ consistent_at h p [] /\ has_document h c /\ append_child p c h = (h1, Ok c) /\
  append_child p c h1 = (h1, Err HierarchyRequest).
Proof.
  pose (ops := ex_sib_ops ++ [ORemoveChild 0 1]). pose (h := default empty_heap (run env0 ops empty_heap)).
  exists h, (append_child 0 1 h).1, 0, 1. split; [apply (run0_reachable ops); by vm_compute|]. split; [by apply check_consistent; vm_compute|].
  split; [by exists 0; vm_compute|]. by vm_compute.
Qed.
Print Assumptions C82_root_refuted.
(** Without the document a child taken out cannot be put back: the call panics. *)
Theorem C82_no_document_refuted : exists h h1 p c y k, reachable h /\ consistent_at h p [2; c; y; 5] /\ remove_child p c h = (h1, Ok c) /\
  (insert_before p c (Some y) h1).2 = Panic k.
Proof.
  pose (ops := ex_sib_ops ++ [ODrop [0]]). pose (h := default empty_heap (run env0 ops empty_heap)).
  exists h, (remove_child 1 3 h).1, 1, 3, 4, PUnwrap. split; [apply (run0_reachable ops); by vm_compute|]. split; [by apply check_consistent; vm_compute|].
  by vm_compute.
Qed.
Print Assumptions C82_no_document_refuted.
