(** * C38: normalize *)
From Coq Require Import Lia.
From Verif Require Import SpecNorm SpecWalk ProofText ProofData ProofInv ProofSteps ProofOps ProofTree ProofInsert ProofElem.

Lemma escape_nil_iff v : blen (escape v) = 0%N <-> v = [].
Proof.
  split; [|by intros ->]. intros H. destruct v as [|c v]; [done|]. exfalso.
  pose proof (escape_escaped (c :: v)) as He. assert (H0 : escape (c :: v) <> []).
  { intros E. rewrite E in He. inversion He as [|? ? ? ? ?|c' r v' d Hr Hv Ec Er]. apply app_eq_nil in Er as [-> _]. inversion Hr. }
 
  apply blen_pos in H0. lia.
Qed.
Lemma changed_refl p s i n : changed_at p s i n n.
Proof. repeat split. Qed.
Lemma otc_refl h p s : only_texts_changed h h p s.
Proof. split; [done|]. split; [done|]. intros i n Hi. exists n. split; [done|apply changed_refl]. Qed.
Lemma otc_trans h1 h2 h3 p s1 s2 s : incl s1 s -> incl s2 s -> only_texts_changed h1 h2 p s1 -> only_texts_changed h2 h3 p s2 -> only_texts_changed h1 h3 p s.
Proof.
  intros I1 I2 (A1 & A2 & A3) (B1 & B2 & B3). split; [congruence|]. split; [eauto|]. intros i n Hi.
  destruct (A3 i n Hi) as (n2 & H2 & C1 & C2 & C3). destruct (B3 i n2 H2) as (n3 & H3 & D1 & D2 & D3). exists n3. split; [done|].
  assert (Ht : n_type n2 = n_type n).
  { destruct (decide (i = p)) as [Hp|Hp]; [by apply C1|]. destruct (decide (n_type n = NText)) as [Ht|Ht]; [|rewrite C3; tauto].
    destruct (in_dec Nat.eq_dec i s1); [by apply C2|rewrite C3; tauto]. }
  split; [|split].
  - intros Hp. destruct (C1 Hp) as (?&?&?&?&?&?), (D1 Hp) as (?&?&?&?&?&?). unfold same_but_children. split_and!; congruence.
  - intros Hp _ Hx.
    assert (E1 : same_but_value_parent n n2).
    { destruct (in_dec Nat.eq_dec i s1); [by apply C2|]. rewrite C3 by tauto. unfold same_but_value_parent. split_and!; done. }
    assert (E2 : same_but_value_parent n2 n3).
    { destruct (in_dec Nat.eq_dec i s2); [apply D2; congruence|]. rewrite D3 by tauto. unfold same_but_value_parent. split_and!; done. }
    destruct E1 as (?&?&?&?&?), E2 as (?&?&?&?&?). unfold same_but_value_parent. split_and!; congruence.
  - intros Hp Hx. assert (~ (In i s1 /\ n_type n = NText)) by (intros [H ?]; apply Hx; auto).
    assert (~ (In i s2 /\ n_type n2 = NText)) by (intros [H' ?]; apply Hx; split; [auto|congruence]).
    rewrite D3, C3; done.
Qed.
Lemma delete_mid {A} (a b : list A) x : delete (length a) (a ++ x :: b) = a ++ b.
Proof. induction a as [|y a IH]; [done|]. cbn. f_equal. exact IH. Qed.
Lemma otc_upd_text h p s c n n' : h_nodes h !! c = Some n -> c <> p -> In c s -> n_type n = NText -> same_but_value_parent n n' ->
  only_texts_changed h (upd c n' h) p s.
Proof.
  intros Hc Hcp Hs Ht Hn. split; [done|]. split.
  - intros i Hi. rewrite lookup_upd_ne; [done|congruence].
  - intros i m Hi. destruct (decide (i = c)) as [->|Hic].
    + exists n'. split; [apply lookup_upd|]. assert (m = n) as -> by congruence. split; [done|]. split; [done|]. tauto.
    + exists m. rewrite lookup_upd_ne by done. split; [done|apply changed_refl].
Qed.
Lemma otc_upd_list h p s np l : h_nodes h !! p = Some np -> only_texts_changed h (upd p (set_children l np) h) p s.
Proof.
  intros Hp. split; [done|]. split.
  - intros i Hi. rewrite lookup_upd_ne; [done|congruence].
  - intros i m Hi. destruct (decide (i = p)) as [->|Hic].
    + eexists. split; [apply lookup_upd|]. assert (m = np) as -> by congruence. split; [done|]. split; done.
    + exists m. rewrite lookup_upd_ne by done. split; [done|apply changed_refl].
Qed.
Lemma text_of_same h h' c : h_nodes h' !! c = h_nodes h !! c -> text_of h' c = text_of h c.
Proof. unfold text_of. by intros ->. Qed.
Lemma reading_app h a b : reading h (a ++ b) = reading h a ++ reading h b.
Proof. apply flat_map_app. Qed.
Lemma reading_same h h' l : (forall c, In c l -> text_of h' c = text_of h c) -> reading h' l = reading h l.
Proof. unfold reading. intros H. rewrite !flat_map_concat_map. f_equal. apply map_ext_in. intros c Hc. by rewrite H. Qed.
Lemma tidy_same h h' l : (forall c, In c l -> text_of h' c = text_of h c) -> tidy h l -> tidy h' l.
Proof.
  intros H [T1 T2]. split.
  - intros c Hc. rewrite H by done. auto.
  - intros x a b y E. rewrite !H; [by eapply T2| |]; rewrite E, in_app_iff; cbn; tauto.
Qed.
Lemma snoc_split {A} (l : list A) c x a b y : l ++ [c] = x ++ a :: b :: y ->
  (exists y', l = x ++ a :: b :: y') \/ (l = x ++ [a] /\ b = c).
Proof.
  destruct y as [|z y _] using rev_ind; intros E.
  - right. rewrite (app_assoc x [a] [b]) in E || (change (x ++ [a; b]) with (x ++ [a] ++ [b]) in E; rewrite app_assoc in E).
    apply app_inj_tail in E as [-> ->]. done.
  - left. exists y. rewrite !app_comm_cons, app_assoc in E. apply app_inj_tail in E as [-> _]. done.
Qed.
Lemma tidy_snoc h l c : tidy h l -> text_of h c <> Some [] -> (text_of h c = None \/ forall k d, l = k ++ [d] -> text_of h d = None) -> tidy h (l ++ [c]).
Proof.
  intros [T1 T2] Hc Hl. split.
  - intros d [Hd|[<-|[]]]%in_app_iff; auto.
  - intros x a b y E. apply snoc_split in E as [(y' & E)|[E ->]]; [by eapply T2|]. destruct Hl as [Hl|Hl]; [tauto|]. left. by eapply Hl.
Qed.

(** Taking [c] out of the consistent children of [p]. *)
Lemma norm_remove h p a c b : Inv h -> consistent_at h p (a ++ c :: b) -> text_of h c <> None ->
  exists h' : heap, remove_child p c h = (h', Ok c) /\ Inv h' /\ consistent_at h' p (a ++ b) /\ only_texts_changed h h' p [c] /\
    (forall d, d <> c -> text_of h' d = text_of h d) /\ parent_node h' c = Ok None.
Proof.
  intros HI (Hl & Hnd & Hpar) Ht. apply child_nodes_ok in Hl as (np & Hp & Hcs).
  assert (Hna : ~ In c a /\ ~ In c b).
  { apply NoDup_remove in Hnd as [_ Hnd']. rewrite in_app_iff in Hnd'. tauto. }
  assert (Hpc' : parent_node h c = Ok (Some p)) by (apply Hpar; rewrite in_app_iff; cbn; tauto). apply parent_node_some in Hpc' as (nc & np' & Hc & Htc & Hcp & Hp').
  assert (np' = np) as -> by congruence. clear Hp'.
  assert (Hne : p <> c).
  { destruct (inv_node h HI p np Hp) as (_ & _ & _ & [G _] & _). destruct (G c) as [? _]; [rewrite Hcs, in_app_iff; cbn; tauto|]. congruence. }
  assert (Hpos : position c (n_children np) = Some (length a)) by (rewrite Hcs; apply position_app; tauto).
  assert (Htt : n_type nc = NText).
  { unfold text_of in Ht. rewrite Hc in Ht. by case_bool_decide. }
  exists (removed h p c np nc (length a)).
  assert (Hlp : forall d, d <> p -> d <> c -> h_nodes (removed h p c np nc (length a)) !! d = h_nodes h !! d).
  { intros d H1 H2. unfold removed. rewrite !lookup_upd_ne by congruence. done. }
  assert (Hlq : h_nodes (removed h p c np nc (length a)) !! p = Some (set_children (a ++ b) np)).
  { unfold removed. rewrite lookup_upd_ne by congruence. rewrite lookup_upd, Hcs, delete_mid. done. }
  assert (Hd : forall d, d <> c -> text_of (removed h p c np nc (length a)) d = text_of h d).
  { intros d Hd. destruct (decide (d = p)) as [->|Hdp]; [|apply text_of_same; auto]. unfold text_of. by rewrite Hlq, Hp. }
  assert (Hpn : parent_node (removed h p c np nc (length a)) c = Ok None).
  { unfold parent_node. rewrite (get_node_some _ _ (set_parent None nc)) by apply lookup_upd. cbn [rbind]. f_equal. by destruct (is_type _ _). }
  split; [|split; [|split; [|split; [|done]]]].
  - rewrite (remove_child_eq h p c np HI Hp), Hpos, Hc. done.
  - unfold removed. by apply remove_inv.
  - split; [apply child_nodes_ok; by eexists|]. split; [by apply NoDup_remove in Hnd as [? _]|].
    intros d Hd'. assert (Hdc : d <> c). { intros ->. rewrite in_app_iff in Hd'. tauto. }
    assert (Hin : In d (a ++ c :: b)) by (rewrite !in_app_iff in *; cbn; tauto).
    apply Hpar in Hin. apply parent_node_some in Hin as (nd & np' & H1 & H2 & H3 & H4).
    apply parent_node_some. destruct (decide (d = p)) as [->|Hdp].
    + assert (nd = np) as -> by congruence. exists (set_children (a ++ b) np), (set_children (a ++ b) np). done.
    + exists nd, (set_children (a ++ b) np). rewrite Hlp by done. done.
  - unfold removed. eapply (otc_trans _ _ _ p [c] [c]); [apply incl_refl|apply incl_refl|by apply otc_upd_list|].
    eapply otc_upd_text; [rewrite lookup_upd_ne by done; done|congruence|by left|done|]. unfold same_but_value_parent. split_and!; done.
Qed.
(** Appending to a Text among them. *)
Lemma norm_append h p l d v x : Inv h -> consistent_at h p l -> In d l -> text_of h d = Some v -> x <> [] -> (exists n, h_nodes h !! d = Some n /\ n_value n <> None) ->
  exists h', append_data d x h = (h', Ok tt) /\ Inv h' /\ consistent_at h' p l /\ only_texts_changed h h' p [d] /\
    text_of h' d = Some (v ++ x) /\ (forall e, e <> d -> h_nodes h' !! e = h_nodes h !! e).
Proof.
  intros HI (Hl & Hnd & Hpar) Hd Hv Hx (n & Hn & Hnv). unfold append_data. destruct x as [|x0 x]; [done|]. cbn [is_nil].
  rewrite (modifyM_eq _ _ n) by done. eexists. split; [done|].
  assert (Ht : n_type n = NText). { unfold text_of in Hv. rewrite Hn in Hv. by case_bool_decide. }
  assert (Hne : d <> p).
  { apply child_nodes_ok in Hl as (np & Hp & Hcs). destruct (inv_node h HI p np Hp) as (_ & _ & _ & [G _] & _). destruct (G d) as [? _]; [by rewrite Hcs|]. congruence. }
  split; [eapply prim_inv; [by apply pr_value|done]|]. split; [|split; [|split]].
  - split; [|split; [done|]].
    + apply child_nodes_ok in Hl as (np & Hp & Hcs). apply child_nodes_ok. exists np. by rewrite lookup_upd_ne by done.
    + intros c Hc. apply Hpar in Hc. apply parent_node_some in Hc as (nc & np & H1 & H2 & H3 & H4). apply parent_node_some.
      destruct (decide (c = d)) as [->|Hcd].
      * assert (nc = n) as -> by congruence. do 2 eexists. split; [apply lookup_upd|]. split; [done|]. split; [done|]. rewrite lookup_upd_ne by done. done.
      * do 2 eexists. rewrite !lookup_upd_ne by done. done.
  - eapply otc_upd_text; [done|done|by left|done|]. unfold same_but_value_parent. split_and!; done.
  - unfold text_of in *. rewrite lookup_upd. cbn [n_type set_value n_value]. rewrite Hn in Hv. rewrite Ht in *. cbn in *. injection Hv as <-. by destruct (n_value n).
  - intros e He. by rewrite lookup_upd_ne.
Qed.

Lemma consistent_text h p l c : consistent_at h p l -> In c l -> exists n, h_nodes h !! c = Some n.
Proof. intros (_ & _ & H) Hc. apply H in Hc. apply parent_node_some in Hc as (n & _ & Hn & _). eauto. Qed.

Lemma norm_step h p a c b : Inv h -> consistent_at h p (a ++ c :: b) -> tidy h a ->
  exists h' a', normalize_step p c h = (h', Ok tt) /\ Inv h' /\ consistent_at h' p (a' ++ b) /\ tidy h' a' /\
    reading h' (a' ++ b) = reading h (a ++ c :: b) /\ only_texts_changed h h' p (a ++ [c]) /\ sublist a' (a ++ [c]) /\
    (forall d, In d (a ++ [c]) -> ~ In d a' -> d <> p /\ parent_node h' d = Ok None) /\ (tidy h (a ++ [c]) -> h' = h /\ a' = a ++ [c]).
Proof.
  intros HI Hc Ht. assert (Hin : In c (a ++ c :: b)) by (rewrite in_app_iff; cbn; tauto).
  destruct (consistent_text _ _ _ _ Hc Hin) as (n & Hn). assert (Hdup := proj1 (proj2 Hc)).
  assert (Hcp : c <> p).
  { intros ->. destruct Hc as (Hl & _). apply child_nodes_ok in Hl as (np & Hp & Hcs). destruct (inv_node h HI p np Hp) as (_ & _ & _ & [G _] & _). by destruct (G p) as [? _]; [rewrite Hcs|]. }
  assert (Hca : ~ In c a /\ ~ In c b). { apply NoDup_remove in Hdup as [_ Hdup']. rewrite in_app_iff in Hdup'. tauto. }
  assert (Hmove : forall x, consistent_at x p (a ++ c :: b) -> consistent_at x p ((a ++ [c]) ++ b)) by (intros x; by rewrite <- app_assoc).
  assert (Hkeep : tidy h (a ++ [c]) -> exists h' a', (h, Ok tt) = (h', Ok tt) /\ Inv h' /\ consistent_at h' p (a' ++ b) /\ tidy h' a' /\
    reading h' (a' ++ b) = reading h (a ++ c :: b) /\ only_texts_changed h h' p (a ++ [c]) /\ sublist a' (a ++ [c]) /\
    (forall d, In d (a ++ [c]) -> ~ In d a' -> d <> p /\ parent_node h' d = Ok None) /\ (tidy h (a ++ [c]) -> h' = h /\ a' = a ++ [c])).
  { intros Htd. exists h, (a ++ [c]). split; [done|]. split; [done|]. split; [by apply Hmove|]. split; [done|]. split; [by rewrite <- app_assoc|].
    split; [apply otc_refl|]. split; [done|]. split; [tauto|]. done. }
  unfold normalize_step. rewrite (bind_ok _ _ h h n) by (unfold getM, lift; by rewrite (get_node_some _ _ _ Hn)).
  destruct (is_type NText n) eqn:Hty.
  2:{ apply Hkeep. assert (Hto : text_of h c = None).
      { unfold text_of. rewrite Hn. case_bool_decide; [|done]. exfalso. apply is_type_false in Hty. done. }
      apply tidy_snoc; [done|congruence|by left]. }
  apply is_type_true in Hty.
  assert (Hto : text_of h c = Some (default [] (n_value n))). { unfold text_of. rewrite Hn, Hty. done. }
  assert (Hlen : length_ h c = Ok (blen (escape (default [] (n_value n))))).
  { unfold length_, data. rewrite (get_node_some _ _ _ Hn). cbn [rbind]. unfold is_type. rewrite Hty. by destruct (n_value n). }
  rewrite (bind_ok _ _ h h (blen (escape (default [] (n_value n))))) by (unfold lift; by rewrite Hlen).
  destruct (N.eqb_spec (blen (escape (default [] (n_value n)))) 0) as [Hz|Hz].
  - apply escape_nil_iff in Hz. rewrite Hz in Hto.
    destruct (norm_remove h p a c b HI Hc) as (h' & Hr & HI' & Hc' & Ho & Hd & Hpn); [congruence|].
    assert (Hd' : forall d, In d (a ++ b) -> text_of h' d = text_of h d).
    { intros d Hdd. apply Hd. intros ->. rewrite in_app_iff in Hdd. tauto. }
    exists h', a. split; [|split; [done|split; [done|split]]].
    + rewrite (bind_ok _ _ h h' c); [done|]. unfold err_to_panic. by rewrite Hr.
    + eapply tidy_same; [|done]. intros d Hdd. apply Hd'. rewrite in_app_iff. tauto.
    + split; [|split; [|split; [|split]]].
      * rewrite (reading_same h h' (a ++ b)) by done. rewrite !reading_app. cbn [reading flat_map]. rewrite Hto. done.
      * eapply (otc_trans _ _ _ p [c] []); [|apply incl_nil_l|done|apply otc_refl]. intros x [<-|[]]. rewrite in_app_iff. cbn. tauto.
      * by apply sublist_inserts_r.
      * intros e [He|[<-|[]]]%in_app_iff He'; [done|done].
      * intros [T1 _]. destruct (T1 c); [rewrite in_app_iff; cbn; tauto|done].
  - assert (Hnz : default [] (n_value n) <> []) by (intros E; apply Hz; by apply escape_nil_iff).
    assert (Hlk : (a ++ c :: b) !! length a = Some c) by (rewrite lookup_app_r by lia; by rewrite Nat.sub_diag).
    pose proof (previous_sibling_eq h p _ _ c Hc Hlk) as Hps.
    destruct a as [|d a _] using rev_ind.
    + cbn in Hps. rewrite (bind_ok _ _ h h None) by (unfold lift; by rewrite Hps). apply Hkeep. apply tidy_snoc; [done|congruence|].
      right. intros k d E. by destruct k.
    + rewrite app_length in Hps. cbn [length] in Hps. replace (length a + 1) with (S (length a)) in Hps by lia. cbn in Hps.
      assert (Hld : ((a ++ [d]) ++ c :: b) !! length a = Some d).
      { rewrite <- app_assoc, lookup_app_r by lia. by rewrite Nat.sub_diag. }
      rewrite Hld in Hps. rewrite (bind_ok _ _ h h (Some d)) by (unfold lift; by rewrite Hps).
      assert (Hdin : In d ((a ++ [d]) ++ c :: b)) by (rewrite !in_app_iff; cbn; tauto).
      destruct (consistent_text _ _ _ _ Hc Hdin) as (nd & Hnd).
      rewrite (bind_ok _ _ h h nd) by (unfold getM, lift; by rewrite (get_node_some _ _ _ Hnd)).
      destruct (is_type NText nd) eqn:Htd.
      2:{ apply Hkeep. apply tidy_snoc; [done|congruence|]. right. intros k e E. apply app_inj_tail in E as [_ <-]. unfold text_of. rewrite Hnd.
          apply is_type_false in Htd. by rewrite bool_decide_eq_false_2. }
      apply is_type_true in Htd.
      assert (Htod : text_of h d = Some (default [] (n_value nd))). { unfold text_of. rewrite Hnd, Htd. done. }
      assert (Hndz : default [] (n_value nd) <> []).
      { intros E. destruct Ht as [T1 _]. apply (T1 d); [rewrite in_app_iff; cbn; tauto|]. congruence. }
      destruct (n_value n) as [v|] eqn:Hv; [|done]. cbn [default] in *.
      assert (Hval : (fun h0 => let? v0 := node_value h0 c in unwrap_opt v0) h = Ok v).
      { unfold node_value. rewrite (get_node_some _ _ _ Hn). cbn [rbind]. by rewrite Hv. }
      rewrite (bind_ok _ _ h h v) by (unfold lift; by rewrite Hval).
      assert (Hcd : c <> d). { intros ->. apply (proj1 Hca). rewrite in_app_iff; cbn; tauto. }
      destruct (norm_append h p _ d _ v HI Hc Hdin Htod Hnz) as (h1 & Ha & HI1 & Hc1 & Ho1 & Ht1 & Hl1).
      { exists nd. split; [done|]. intros E. by rewrite E in Hndz. }
      rewrite (bind_ok _ _ h h1 tt) by (unfold err_to_panic; by rewrite Ha).
      destruct (norm_remove h1 p (a ++ [d]) c b HI1 Hc1) as (h2 & Hr & HI2 & Hc2 & Ho2 & Hd2 & Hpn).
      { rewrite (text_of_same h h1) by (by apply Hl1). congruence. }
      rewrite (bind_ok _ _ h1 h2 c) by (unfold err_to_panic; by rewrite Hr).
      assert (Hoth : forall e, e <> c -> e <> d -> text_of h2 e = text_of h e).
      { intros e E1 E2. rewrite Hd2 by done. apply text_of_same. by apply Hl1. }
      assert (Hda : ~ In d a /\ ~ In d b).
      { rewrite <- app_assoc in Hdup. cbn in Hdup. apply NoDup_remove in Hdup as [_ Hdup']. rewrite in_app_iff in Hdup'. cbn in Hdup'. tauto. }
      rewrite !in_app_iff in Hca. cbn in Hca.
      exists h2, (a ++ [d]). split; [done|]. split; [done|]. split; [done|]. split; [|split; [|split; [|split; [|split]]]].
      * apply tidy_snoc.
        -- apply (tidy_same h h2).
           ++ intros e He. apply Hoth; intros ->; tauto.
           ++ destruct Ht as [T1 T2]. split; [intros e He; apply T1; rewrite in_app_iff; tauto|]. intros x e f y ->. apply (T2 x e f (y ++ [d])). by rewrite <- app_assoc.
        -- rewrite Hd2, Ht1 by done. intros E. injection E as E. apply app_eq_nil in E as [_ E]. done.
        -- right. intros k e ->. rewrite Hoth; [|intros ->; rewrite !in_app_iff in Hca; cbn in Hca; tauto|intros ->; rewrite !in_app_iff in Hda; cbn in Hda; tauto].
           destruct Ht as [_ T2]. destruct (T2 k e d []) as [T|T]; [by rewrite <- app_assoc|done|congruence].
      * rewrite !reading_app. rewrite (reading_same h h2 a), (reading_same h h2 b).
        2:{ intros e He. apply Hoth; intros ->; tauto. }
        2:{ intros e He. apply Hoth; intros ->; tauto. }
        cbn [reading flat_map]. rewrite Hd2, Ht1, Htod, Hto by done. unfold reading. cbn [flat_map]. rewrite !app_nil_r, map_app, <- !app_assoc. done.
      * eapply (otc_trans _ _ _ p [d] [c]); [| |done|done]; intros x [<-|[]]; rewrite !in_app_iff; cbn; tauto.
      * by apply sublist_inserts_r.
      * intros e [He|[<-|[]]]%in_app_iff He'; [done|done].
      * intros [_ T2]. destruct (T2 a d c []) as [T|T]; [by rewrite <- app_assoc|congruence|congruence].
Qed.

Lemma norm_loop p : forall b a h, Inv h -> consistent_at h p (a ++ b) -> tidy h a ->
  exists h' l', iterM (normalize_step p) b h = (h', Ok tt) /\ Inv h' /\ consistent_at h' p l' /\ tidy h' l' /\
    reading h' l' = reading h (a ++ b) /\ only_texts_changed h h' p (a ++ b) /\ sublist l' (a ++ b) /\
    (forall d, In d (a ++ b) -> ~ In d l' -> parent_node h' d = Ok None) /\ (tidy h (a ++ b) -> h' = h).
Proof.
  induction b as [|c b IH]; intros a h HI Hc Ht.
  - exists h, a. rewrite app_nil_r in *. cbn. split_and!; try done. apply otc_refl.
  - destruct (norm_step h p a c b HI Hc Ht) as (h1 & a1 & Hs & HI1 & Hc1 & Ht1 & Hr1 & Ho1 & Hsub1 & Hpn1 & Hid1).
    destruct (IH a1 h1 HI1 Hc1 Ht1) as (h2 & l2 & Hs2 & HI2 & Hc2 & Ht2 & Hr2 & Ho2 & Hsub2 & Hpn2 & Hid2).
    exists h2, l2. cbn [iterM]. rewrite (bind_ok _ _ h h1 tt) by done.
    assert (Hsub : sublist (a1 ++ b) (a ++ c :: b)).
    { change (a ++ c :: b) with (a ++ [c] ++ b). rewrite app_assoc. by apply sublist_app. }
    split; [done|]. split; [done|]. split; [done|]. split; [done|]. split; [congruence|]. split; [|split; [|split]].
    + eapply (otc_trans _ _ _ p (a ++ [c]) (a1 ++ b)); [| |done|done].
      * intros x. rewrite !in_app_iff. cbn. tauto.
      * intros x Hx%elem_of_list_In. apply elem_of_list_In. eapply elem_of_submseteq; [done|by apply sublist_submseteq].
    + by etrans.
    + intros d Hd Hd'. destruct (in_dec Nat.eq_dec d (a1 ++ b)) as [Hin|Hin]; [by apply Hpn2|].
      rewrite in_app_iff in Hin. destruct (Hpn1 d) as [Hdp Hpd]; [rewrite in_app_iff in *; cbn in *; tauto|tauto|].
      unfold parent_node, get_node in Hpd. destruct (h_nodes h1 !! d) as [n|] eqn:Hn; [|done]. destruct Ho2 as (_ & Hnone & Ho2). destruct (Ho2 d n Hn) as (n' & Hn' & _ & _ & Hk).
      rewrite Hk in Hn' by (done || (rewrite in_app_iff; tauto)). unfold parent_node, get_node. rewrite Hn'. cbn [rbind] in *.
      destruct (is_type NAttribute n); [done|]. destruct (n_parent n) as [q|]; [|done]. cbn in *. unfold alive in *. destruct (h_nodes h1 !! q) eqn:Hq; [done|]. by rewrite Hnone.
    + intros Htd. destruct Hid1 as [-> ->].
      * destruct Htd as [T1 T2]. split; [intros e He; apply T1; rewrite in_app_iff in *; cbn in *; tauto|]. intros x e f y E. apply (T2 x e f (y ++ b)).
        change (a ++ c :: b) with (a ++ [c] ++ b). rewrite app_assoc, E, <- app_assoc. done.
      * apply Hid2. by rewrite <- app_assoc.
Qed.
Lemma consistent_reachable h p l : consistent_at h p l -> exists n, h_nodes h !! p = Some n /\ n_children n = l.
Proof. intros [H _]. by apply child_nodes_ok. Qed.

(** ** C38 *)
(** On a node whose children know their parent, the call returns; the children left are some of the old ones
    in order, none an empty Text and no two adjacent ones both Text; the text read between the other nodes is
    the same; the children taken out have no parent, and nothing else in the document changed. *)
Theorem C38_normalize : forall h p l, reachable h -> consistent_at h p l ->
  exists h' l', normalize p h = (h', Ok tt) /\ consistent_at h' p l' /\ sublist l' l /\ tidy h' l' /\ reading h' l' = reading h l /\
    (forall c, In c l -> ~ In c l' -> parent_node h' c = Ok None) /\ only_texts_changed h h' p l.
Proof.
  intros h p l Hr Hc. apply reachable_inv in Hr as HI. destruct (consistent_reachable _ _ _ Hc) as (n & Hn & Hl).
  destruct (norm_loop p l [] h HI Hc) as (h' & l' & H1 & _ & H2 & H3 & H4 & H5 & H6 & H7 & _).
  { split; [intros c []|]. intros x a b y E. by destruct x. }
  exists h', l'. split; [|done]. unfold normalize. rewrite (bind_ok _ _ h h n) by (unfold getM, lift; by rewrite (get_node_some _ _ _ Hn)). by rewrite Hl.
Qed.
Print Assumptions C38_normalize.
(** Nothing to do on tidy children, so a second call does nothing. *)
Lemma norm_tidy h p l : Inv h -> consistent_at h p l -> tidy h l -> normalize p h = (h, Ok tt).
Proof.
  intros HI Hc Ht. destruct (consistent_reachable _ _ _ Hc) as (n & Hn & Hl).
  destruct (norm_loop p l [] h HI Hc) as (h' & l' & H1 & _ & _ & _ & _ & _ & _ & _ & H7).
  { split; [intros c []|]. intros x a b y E. by destruct x. }
  unfold normalize. rewrite (bind_ok _ _ h h n) by (unfold getM, lift; by rewrite (get_node_some _ _ _ Hn)). rewrite Hl, H1, H7; done.
Qed.
Theorem C38_tidy_untouched : forall h p l, reachable h -> consistent_at h p l -> tidy h l -> normalize p h = (h, Ok tt).
Proof. intros h p l Hr. apply norm_tidy. by apply reachable_inv. Qed.
Print Assumptions C38_tidy_untouched.
Theorem C38_idempotent : forall h h' p l, reachable h -> consistent_at h p l -> normalize p h = (h', Ok tt) -> normalize p h' = (h', Ok tt).
Proof.
  intros h h' p l Hr Hc Hs. apply reachable_inv in Hr as HI. destruct (consistent_reachable _ _ _ Hc) as (n & Hn & Hl).
  destruct (norm_loop p l [] h HI Hc) as (h2 & l' & H1 & HI2 & H2 & H3 & _).
  { split; [intros c []|]. intros x a b y E. by destruct x. }
  unfold normalize in Hs. rewrite (bind_ok _ _ h h n) in Hs by (unfold getM, lift; by rewrite (get_node_some _ _ _ Hn)). rewrite Hl, H1 in Hs.
  injection Hs as ->. by eapply norm_tidy.
Qed.
Print Assumptions C38_idempotent.

(** Without that hypothesis the call still returns, on every node of every reachable state. *)
Lemma submseteq_head (c : id) l k t : l !! k = Some c -> c :: t ⊆+ l -> t ⊆+ delete k l.
Proof.
  intros Hk Hs. apply delete_Permutation in Hk. rewrite Hk in Hs. by apply (submseteq_app_inv_l t (delete k l) [c]) in Hs.
Qed.
Lemma remove_any h p c np t : Inv h -> h_nodes h !! p = Some np -> c :: t ⊆+ n_children np ->
  exists h', remove_child p c h = (h', Ok c) /\ Inv h' /\ exists np', h_nodes h' !! p = Some np' /\ t ⊆+ n_children np'.
Proof.
  intros HI Hp Hs. assert (Hin : In c (n_children np)) by (apply elem_of_list_In; eapply elem_of_submseteq; [|done]; by left).
  rewrite (remove_child_eq h p c np HI Hp). destruct (position c (n_children np)) as [k|] eqn:Hk; [|by apply position_none in Hk].
  destruct (inv_node h HI p np Hp) as (_ & _ & _ & [G _] & _). destruct (G c Hin) as (Hne & s & Hsc & _). apply info_inv in Hsc as (nc & Hnc & _).
  rewrite Hnc. eexists. split; [done|]. split; [by apply remove_inv|]. exists (set_children (delete k (n_children np)) np). unfold removed. rewrite lookup_upd_ne by done.
  rewrite lookup_upd. split; [done|]. apply position_lookup in Hk as [Hk _]. cbn. by eapply submseteq_head.
Qed.
Lemma norm_any p : forall t h np, Inv h -> h_nodes h !! p = Some np -> t ⊆+ n_children np ->
  exists h', iterM (normalize_step p) t h = (h', Ok tt).
Proof.
  induction t as [|c t IH]; intros h np HI Hp Hs; cbn [iterM]; [by exists h|].
  assert (Hin : In c (n_children np)) by (apply elem_of_list_In; eapply elem_of_submseteq; [|done]; by left).
  assert (Hst : t ⊆+ n_children np) by (etrans; [|exact Hs]; by apply submseteq_cons).
  destruct (inv_node h HI p np Hp) as (_ & _ & _ & [G _] & _). destruct (G c Hin) as (Hne & s & Hsc & _). apply info_inv in Hsc as (nc & Hnc & _).
  cut (exists h1, normalize_step p c h = (h1, Ok tt) /\ Inv h1 /\ exists np', h_nodes h1 !! p = Some np' /\ t ⊆+ n_children np').
  { intros (h1 & H1 & HI1 & np1 & Hp1 & Hs1). rewrite (bind_ok _ _ h h1 tt) by done. by eapply IH. }
  unfold normalize_step. rewrite (bind_ok _ _ h h nc) by (unfold getM, lift; by rewrite (get_node_some _ _ _ Hnc)).
  destruct (is_type NText nc) eqn:Hty; [|exists h; eauto].
  assert (Hlen : length_ h c = Ok (match n_value nc with None => 0%N | Some v => blen (escape v) end)).
  { apply is_type_true in Hty. unfold length_, data. rewrite (get_node_some _ _ _ Hnc). cbn [rbind]. unfold is_type. rewrite Hty. by destruct (n_value nc). }
  rewrite (bind_ok _ _ h h (match n_value nc with None => 0%N | Some v => blen (escape v) end)) by (unfold lift; by rewrite Hlen).
  destruct (N.eqb_spec (match n_value nc with None => 0%N | Some v => blen (escape v) end) 0) as [Hz|Hz].
  - destruct (remove_any h p c np t HI Hp Hs) as (h1 & Hr & HI1 & Hrest). exists h1. rewrite (bind_ok _ _ h h1 c); [done|]. unfold err_to_panic. by rewrite Hr.
  - destruct (n_value nc) as [v|] eqn:Hv; [|done].
    assert (Hprev : exists o, previous_sibling h c = Ok o /\ forall d, o = Some d -> exists nd, h_nodes h !! d = Some nd).
    { unfold previous_sibling. rewrite (get_node_some _ _ _ Hnc). cbn [rbind]. destruct (is_type NAttribute nc); [by eexists|].
      destruct (upgrade h (n_parent nc)) as [q|] eqn:Hu; [|by eexists]. apply upgrade_some in Hu as (Hq & nq & Hnq).
      rewrite (get_node_some _ _ _ Hnq). cbn [rbind]. destruct (position c (n_children nq)) as [[|k]|]; [by eexists| |by eexists].
      eexists. split; [done|]. intros d Hd. destruct (inv_node h HI q nq Hnq) as (_ & _ & _ & [G' _] & _).
      destruct (G' d) as (_ & sd & Hsd & _); [by eapply elem_of_list_In, elem_of_list_lookup_2|]. apply info_inv in Hsd as (nd & Hnd & _). eauto. }
    destruct Hprev as (o & Ho & Hal). rewrite (bind_ok _ _ h h o) by (unfold lift; by rewrite Ho).
    destruct o as [d|]; [|exists h; eauto]. destruct (Hal d eq_refl) as (nd & Hnd).
    rewrite (bind_ok _ _ h h nd) by (unfold getM, lift; by rewrite (get_node_some _ _ _ Hnd)).
    destruct (is_type NText nd) eqn:Htd; [|exists h; eauto].
    assert (Hval : (fun h0 => let? v0 := node_value h0 c in unwrap_opt v0) h = Ok v).
    { unfold node_value. rewrite (get_node_some _ _ _ Hnc). cbn [rbind]. by rewrite Hv. }
    rewrite (bind_ok _ _ h h v) by (unfold lift; by rewrite Hval).
    assert (Hvz : is_nil v = false). { destruct v; [by vm_compute in Hz|done]. }
    pose (h1 := upd d (set_value (Some (match n_value nd with None => v | Some w => w ++ v end)) nd) h).
    assert (Ha : append_data d v h = (h1, Ok tt)). { unfold append_data. rewrite Hvz. by rewrite (modifyM_eq _ _ nd). }
    rewrite (bind_ok _ _ h h1 tt) by (unfold err_to_panic; by rewrite Ha).
    assert (HI1 : Inv h1) by (eapply prim_inv; [by apply pr_value|done]).
    assert (Hp1 : exists np1, h_nodes h1 !! p = Some np1 /\ n_children np1 = n_children np).
    { destruct (decide (d = p)) as [->|Hdp].
      - eexists. split; [apply lookup_upd|]. cbn. by assert (nd = np) as -> by congruence.
      - exists np. unfold h1. by rewrite lookup_upd_ne. }
    destruct Hp1 as (np1 & Hp1 & Hcs1). rewrite <- Hcs1 in Hs.
    destruct (remove_any h1 p c np1 t HI1 Hp1 Hs) as (h2 & Hr & HI2 & Hrest). exists h2. rewrite (bind_ok _ _ h1 h2 c); [done|]. unfold err_to_panic. by rewrite Hr.
Qed.
Theorem C38_returns : forall h p l, reachable h -> child_nodes h p = Ok l -> exists h', normalize p h = (h', Ok tt).
Proof.
  intros h p l Hr (n & Hn & Hl)%child_nodes_ok. unfold normalize. rewrite (bind_ok _ _ h h n) by (unfold getM, lift; by rewrite (get_node_some _ _ _ Hn)).
  eapply norm_any; [by apply reachable_inv|done|done].
Qed.
Print Assumptions C38_returns.

(** ** An example, and what fails *)
(** An element holding: empty, "a", empty, "b", a comment, "c", an element holding "d" and "e". *)
Definition ex_norm_ops : list op :=
  [ OCreateDocument None (Some (lit "r")) None options_new; OCreateText 0 []; OCreateText 0 (lit "a"); OCreateText 0 []; OCreateText 0 (lit "b"); OCreateComment 0 (lit "x");
    OCreateText 0 (lit "c"); OCreateElement 0 (lit "k"); OCreateText 0 (lit "d"); OCreateText 0 (lit "e");
    OAppendChild 1 2; OAppendChild 1 3; OAppendChild 1 4; OAppendChild 1 5; OAppendChild 1 6; OAppendChild 1 7; OAppendChild 1 8; OAppendChild 8 9; OAppendChild 8 10 ].
Definition ex_norm : heap := default empty_heap (run env0 ex_norm_ops empty_heap).
Example ex_norm_reachable : reachable ex_norm.
Proof. apply (run0_reachable ex_norm_ops). by vm_compute. Qed.
Lemma check_consistent h p l : child_nodes h p = Ok l -> bool_decide (NoDup l) = true ->
  forallb (fun c => match parent_node h c with Ok (Some q) => bool_decide (q = p) | _ => false end) l = true -> consistent_at h p l.
Proof.
  intros H1 H2 H3. split; [done|]. split; [apply NoDup_ListNoDup; by apply bool_decide_eq_true in H2|]. intros c Hc. rewrite forallb_forall in H3. specialize (H3 c Hc).
  destruct (parent_node h c) as [[q|]|e|e|]; try done. apply bool_decide_eq_true in H3. by subst.
Qed.
Example C38_example : consistent_at ex_norm 1 [2; 3; 4; 5; 6; 7; 8] /\ ~ tidy ex_norm [2; 3; 4; 5; 6; 7; 8] /\
  let h' := (normalize 1 ex_norm).1 in
  child_nodes h' 1 = Ok [3; 6; 7; 8] /\ node_value h' 3 = Ok (Some (lit "ab")) /\
  reading h' [3; 6; 7; 8] = [inl 97%N; inl 98%N; inr 6; inl 99%N; inr 8] /\ parent_node h' 5 = Ok None.
Proof.
  split; [by apply check_consistent; vm_compute|]. split; [intros [H _]; apply (H 2); [by left|by vm_compute]|]. by vm_compute.
Qed.
(** DOM has normalize reach the whole subtree; here the grandchildren are left as they are. *)
Theorem C38_whole_subtree_refuted : exists h h' p c l, reachable h /\ consistent_at h p [c] /\ normalize p h = (h', Ok tt) /\
  child_nodes h' c = Ok l /\ consistent_at h' c l /\ ~ tidy h' l.
Proof.
  pose (h := default empty_heap (run env0 (ex_norm_ops ++ map (ORemoveChild 1) [2; 3; 4; 5; 6; 7]) empty_heap)).
  exists h, (normalize 1 h).1, 1, 8, [9; 10]. split; [apply (run0_reachable (ex_norm_ops ++ map (ORemoveChild 1) [2; 3; 4; 5; 6; 7])); by vm_compute|].
  split; [by apply check_consistent; vm_compute|]. split; [by vm_compute|]. split; [by vm_compute|]. split; [by apply check_consistent; vm_compute|].
  intros [_ H]. destruct (H [] 9 10 [] eq_refl) as [H'|H']; by vm_compute in H'.
Qed.
Print Assumptions C38_whole_subtree_refuted.
(** The children of a deep clone have no parent, so adjacent Text nodes in a clone are never merged. *)
Theorem C38_any_node_refuted : exists h h' p l, reachable h /\ child_nodes h p = Ok l /\ normalize p h = (h', Ok tt) /\ child_nodes h' p = Ok l /\ ~ tidy h' l.
Proof.
  pose (h := default empty_heap (run env0 (ex_norm_ops ++ [OClone true 8]) empty_heap)).
  pose (c := default 0 (match (clone_node true 8 ex_norm).2 with Ok j => Some j | _ => None end)).
  pose (l := match child_nodes h c with Ok l => l | _ => [] end).
  exists h, (normalize c h).1, c, l. split; [apply (run0_reachable (ex_norm_ops ++ [OClone true 8])); by vm_compute|].
  split; [by vm_compute|]. split; [by vm_compute|]. split; [by vm_compute|].
  intros [_ H]. destruct (H [] (nth 0 l 0) (nth 1 l 0) []) as [H'|H']; by vm_compute in H' || by vm_compute.
Qed.
Print Assumptions C38_any_node_refuted.
