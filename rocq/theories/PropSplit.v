(** * C20: Text::split *)
From Coq Require Import Lia.
From Verif Require Import SpecTree SpecData ProofText ProofData PropText PropData History ProofInv ProofSteps ProofOps ProofTree ProofInsert PropInsert.

(** The value [v] of a node of type [t] is cut at byte [o] into [l] and [r]: at a character boundary of a value that is stored as it
    is measured, or at or past the (escaped) length. *)
Definition cut (t : node_type) (v : str) (o : N) (l r : str) : Prop :=
  v = l ++ r /\
  (o = blen l /\ (t = NText -> forall c, In c v -> ~ special c) \/
   r = [] /\ exists d, (t = NText -> escaped v d) /\ (t <> NText -> d = v) /\ (blen d <= o)%N).
(** The new node. *)
Definition split_off (n : node) (r : str) (p : option id) : node := mkNode (n_type n) (n_name n) (Some r) p (n_owner n) [] XNone.

(** The second half of the call. *)
Definition split_tail (self : id) (s : str) : M id :=
  do? n := getM self in
  do? new_node :=
    match n_type n with
    | NText => do? d := lift (fun _ => unwrap_opt (n_owner n)) in ret (new_text d s)
    | NCData => do? d := lift (fun _ => unwrap_opt (n_owner n)) in ret (new_cdata d s)
    | _ => fail Syntax
    end in
  do? new := allocM new_node in
  do? parent := lift (fun h => parent_node h self) in
  match parent with
  | None => ret new
  | Some p =>
      do? next := lift (fun h => next_sibling h self) in
      do? _ := insert_before p new next in
      ret new
  end.
Lemma split_head E h i n v o l r : h_nodes h !! i = Some n -> (n_type n = NText \/ n_type n = NCData) -> n_value n = Some v ->
  fits (escape v) -> cut (n_type n) v o l r ->
  DomOps.split E i o h = split_tail i r (upd i (set_value (Some l) n) h).
Proof.
  intros Hn Ht Hv Hf [-> Hcut].
  assert (Hcd : is_character_data n = true) by (unfold is_character_data, is_type; by destruct Ht as [-> | ->]).
  set (d := if is_type NText n || is_type NComment n then escape (l ++ r) else l ++ r).
  assert (Hl : length_ h i = Ok (blen d)).
  { unfold length_, data, get_node. rewrite Hn. cbn [rbind]. by rewrite Hv. }
  pose proof (escaped_blen _ _ (escape_escaped (l ++ r))) as [Hge Heq].
  assert (Hd : (blen (l ++ r) <= blen d <= blen (escape (l ++ r)))%N) by (subst d; destruct (_ || _); lia).
  assert (Hd' : n_type n = NText -> d = escape (l ++ r)) by (intros E'; subst d; unfold is_type; by rewrite E').
  assert (Hd'' : n_type n <> NText -> d = l ++ r) by (intros E'; subst d; unfold is_type; destruct Ht as [Ht|Ht]; [done|by rewrite Ht]).
  unfold DomOps.split. unfold bind at 1, getM, lift, get_node. rewrite Hn. rewrite Hcd. cbn [negb]. unfold bind at 1. rewrite Hl.
  unfold fits in Hf. rewrite blen_app in Hd.
  destruct Hcut as [[-> Hsp]|[-> (d0 & H1 & H2 & H3)]].
  - assert (Hde : blen d = (blen l + blen r)%N).
    { destruct (decide (n_type n = NText)) as [E'|E'].
      - rewrite (Hd' E'), <- blen_app. symmetry. apply Heq, List.Forall_forall. auto.
      - by rewrite (Hd'' E'), blen_app. }
    rewrite Hde. destruct r as [|x r'].
    + cbn [blen]. rewrite N.add_0_r, N.leb_refl. unfold bind at 1, ret at 1. rewrite app_nil_r in Hv.
      rewrite upd_id; [done|]. rewrite Hn. f_equal. rewrite <- Hv. by destruct n.
    + assert (Hsz : (blen l + blen (x :: r') < usize_mod)%N) by (rewrite blen_app in Hge; by eapply N.le_lt_trans).
      pose proof (blen_pos (x :: r') ltac:(done)). destruct (N.leb_spec (blen l + blen (x :: r')) (blen l)); [lia|].
      replace (blen l + blen (x :: r') - blen l)%N with (blen (x :: r')) by lia. unfold bind at 1 2 3.
      rewrite (substring_clip E h i l (x :: r')); [|by exists n|done|lia|exact Hsz].
      assert (Hdel : delete_data E i (blen l) (blen (x :: r')) h = (put_value h i n (Some l), Ok tt)).
      { rewrite delete_data_eq by (exact Hsz || lia). rewrite (replace_data_eq E h i n) by done. rewrite Hv.
        rewrite replace_value_clip; [by rewrite app_nil_r|done|lia|exact Hsz]. }
      by rewrite Hdel.
  - rewrite app_nil_r in *.
    assert (Hle : (blen d <= o)%N).
    { destruct (decide (n_type n = NText)) as [E'|E'].
      - rewrite (Hd' E'). by rewrite <- (escaped_fun l d0 (escape l) (H1 E') (escape_escaped l)).
      - rewrite (Hd'' E'). by rewrite <- (H2 E'). }
    destruct (N.leb_spec (blen d) o); [|lia]. unfold bind at 1, ret at 1.
    rewrite upd_id; [done|]. rewrite Hn. f_equal. rewrite <- Hv. by destruct n.
Qed.
Lemma split_new h i n s : Inv h -> h_nodes h !! i = Some n -> (n_type n = NText \/ n_type n = NCData) ->
  exists d, n_owner n = Some d /\ Inv (allocd (split_off n s None) h) /\
  match n_type n with
  | NText => do? d := lift (fun _ => unwrap_opt (n_owner n)) in ret (new_text d s)
  | NCData => do? d := lift (fun _ => unwrap_opt (n_owner n)) in ret (new_cdata d s)
  | _ => fail Syntax
  end h = (h, Ok (split_off n s None)).
Proof.
  intros HI Hn Ht. assert (Hnd : n_type n <> NDocument /\ n_type n <> NDocumentType) by (by destruct Ht as [-> | ->]).
  destruct (owner_some h i n HI Hn) as (d & Ho & _); [tauto..|]. exists d. split; [done|].
  destruct (inv_node h HI i n Hn) as (_ & Howner & _ & _ & Hname).
  split.
  - eapply (prim_inv (LAlloc (split_off n s None))); [|exact HI]. apply pr_alloc; [|done]. apply fresh_ok; [done|done| |done|done].
    unfold ext_ok. cbn. by destruct Ht as [-> | ->].
  - unfold split_off. unfold name_ok in Hname. destruct Ht as [Ht|Ht]; rewrite Ht in *; rewrite Ho, Hname; done.
Qed.
Lemma upd_value_inv h i n v : Inv h -> h_nodes h !! i = Some n -> Inv (upd i (set_value v n) h).
Proof. intros HI Hn. eapply prim_inv; [|exact HI]. by apply pr_value. Qed.

(** Without a parent, the new node has none either. *)
Theorem C20_alone : forall E h i n v o l r, reachable h -> h_nodes h !! i = Some n -> (n_type n = NText \/ n_type n = NCData) ->
  n_value n = Some v -> fits (escape v) -> cut (n_type n) v o l r -> parent_node h i = Ok None ->
  exists h', DomOps.split E i o h = (h', Ok (h_next h)) /\
    h_nodes h' !! i = Some (set_value (Some l) n) /\ h_nodes h' !! h_next h = Some (split_off n r None) /\
    forall j, j <> i -> j <> h_next h -> h_nodes h' !! j = h_nodes h !! j.
Proof.
  intros E h i n v o l r Hr Hn Ht Hv Hf Hcut Hpar. pose proof (reachable_inv h Hr) as HI.
  rewrite (split_head E h i n v o l r) by done. pose proof (upd_value_inv h i n (Some l) HI Hn) as HI1.
  set (h1 := upd i (set_value (Some l) n) h) in *. assert (Hn1 : h_nodes h1 !! i = Some (set_value (Some l) n)) by apply lookup_upd.
  destruct (split_new h1 i _ r HI1 Hn1 Ht) as (d & Ho & HI2 & Hnew).
  pose proof (inv_lt h HI i n Hn) as Hlt.
  exists (allocd (split_off n r None) h1). split.
  - unfold split_tail. unfold bind at 1, getM, lift at 1. rewrite (get_node_some _ _ _ Hn1). unfold bind at 1. rewrite Hnew.
    rewrite bind_allocM. unfold bind at 1, lift at 1.
    assert (Hp : parent_node (allocd (split_off (set_value (Some l) n) r None) h1) i = Ok None).
    { assert (Hna : n_type n <> NAttribute) by (by destruct Ht as [-> | ->]).
      rewrite (parent_node_eq h i n Hn Hna) in Hpar. injection Hpar as Hpar.
      rewrite (parent_node_eq _ i (set_value (Some l) n)); [|cbn; rewrite lookup_insert_ne by (cbn in *; lia); by rewrite lookup_insert|done].
      f_equal. cbn [n_parent set_value]. apply upgrade_none. apply upgrade_none in Hpar as [?|(q & Hq & Hdead)]; [by left|right].
      exists q. split; [done|]. destruct (inv_node h HI i n Hn) as (_ & _ & Hpo & _). destruct (Hpo q Hq) as [Hql _].
      cbn. rewrite !lookup_insert_ne; [done| |cbn in *; lia]. intros ->. congruence. }
    rewrite Hp. done.
  - cbn. split; [rewrite lookup_insert_ne by lia; by rewrite lookup_insert|]. split; [by rewrite lookup_insert|].
    intros j Hj Hj'. by rewrite !lookup_insert_ne by congruence.
Qed.
Print Assumptions C20_alone.
(** Otherwise it comes directly after the node. *)
Theorem C20_in_place : forall E h i n v o l r p l1 l2, reachable h -> h_nodes h !! i = Some n -> (n_type n = NText \/ n_type n = NCData) ->
  n_value n = Some v -> fits (escape v) -> cut (n_type n) v o l r ->
  consistent_at h p (l1 ++ i :: l2) -> (exists d, owner_document h i = Ok (Some d)) ->
  exists h' np np', DomOps.split E i o h = (h', Ok (h_next h)) /\
    h_nodes h' !! i = Some (set_value (Some l) n) /\ h_nodes h' !! h_next h = Some (split_off n r (Some p)) /\
    h_nodes h !! p = Some np /\ h_nodes h' !! p = Some np' /\ same_but_children np np' /\
    child_nodes h' p = Ok (l1 ++ i :: h_next h :: l2) /\
    forall j, j <> i -> j <> h_next h -> j <> p -> h_nodes h' !! j = h_nodes h !! j.
Proof.
  intros E h i n v o l r p l1 l2 Hr Hn Ht Hv Hf Hcut Hco [d Hdoc]. pose proof (reachable_inv h Hr) as HI.
  rewrite (split_head E h i n v o l r) by done. pose proof (upd_value_inv h i n (Some l) HI Hn) as HI1.
  assert (Hna : n_type n <> NAttribute) by (by destruct Ht as [-> | ->]).
  assert (Hnd : n_type n <> NDocument /\ n_type n <> NDocumentType) by (by destruct Ht as [-> | ->]).
  pose proof (inv_lt h HI i n Hn) as Hlt.
  destruct Hco as ((np & Hp & Hch)%child_nodes_ok & Hndup & Hpar).
  assert (Hpn : parent_node h i = Ok (Some p)) by (apply Hpar; rewrite in_app_iff; right; by left).
  pose proof Hpn as (n' & np' & Hn' & _ & Hpi & Hp')%parent_node_some. assert (n' = n) by congruence. assert (np' = np) by congruence. subst n' np'.
  assert (Hip : p <> i). { destruct (inv_node h HI p np Hp) as (_ & _ & _ & [G _] & _). destruct (G i) as [? _]; [rewrite Hch, in_app_iff; right; by left|congruence]. }
  pose proof (inv_lt h HI p np Hp) as Hltp.
  set (n1 := set_value (Some l) n) in *. set (h1 := upd i n1 h) in *. assert (Hn1 : h_nodes h1 !! i = Some n1) by apply lookup_upd.
  destruct (split_new h1 i n1 r HI1 Hn1 Ht) as (d' & Ho & HI2 & Hnew).
  set (c := h_next h). set (h2 := allocd (split_off n1 r None) h1) in *.
  assert (L2 : forall j, j <> i -> j <> c -> h_nodes h2 !! j = h_nodes h !! j).
  { intros j H1 H2. cbn. by rewrite !lookup_insert_ne by (subst c; congruence). }
  assert (Hi2 : h_nodes h2 !! i = Some n1) by (cbn; rewrite lookup_insert_ne by lia; by rewrite lookup_insert).
  assert (Hp2 : h_nodes h2 !! p = Some np) by (rewrite L2; [done|done|subst c; lia]).
  assert (Hc2 : h_nodes h2 !! c = Some (split_off n1 r None)) by (cbn; by rewrite lookup_insert).
  assert (Hpc : p <> c) by (subst c; lia).
  assert (Hco2 : consistent_at h2 p (l1 ++ i :: l2)).
  { split; [apply child_nodes_ok; eauto|]. split; [done|]. intros x Hx. destruct (decide (x = i)) as [->|Hxi].
    - apply parent_node_some. exists n1, np. done.
    - pose proof (Hpar x Hx) as (nx & np' & Hx1 & Hx2 & Hx3 & Hx4)%parent_node_some. apply parent_node_some. exists nx, np.
      split_and!; try done. rewrite L2; [done|done|]. pose proof (inv_lt h HI x nx Hx1). subst c. lia. }
  assert (Hns : next_sibling h2 i = Ok (head l2)).
  { rewrite (next_sibling_eq h2 p (l1 ++ i :: l2) (length l1) i Hco2) by (by rewrite list_lookup_middle).
    rewrite lookup_app_r by lia. replace (S (length l1) - length l1)%nat with 1%nat by lia. by destruct l2. }
  assert (Howner : n_owner n = Some d /\ exists nd, h_nodes h !! d = Some nd).
  { unfold owner_document, get_node in Hdoc. rewrite Hn in Hdoc. cbn in Hdoc. injection Hdoc as Hdoc. by apply upgrade_some in Hdoc. }
  destruct Howner as [Hod [nd Hd]].
  assert (Hlink : is_child_allowed (n_type np) (n_type n) = true /\ (n_type np <> NDocument -> n_owner n = n_owner np)).
  { destruct (inv_node h HI i n Hn) as (_ & _ & Hpo & _). destruct (Hpo p Hpi) as (_ & _ & Hl). destruct (Hl (static np)) as [[G1 G2] _]; [by apply info_some|].
    cbn in G1, G2. auto. }
  destruct Hlink as [Hal How]. assert (Hnpd : n_type np <> NDocument) by (intros E'; rewrite E' in Hal; by destruct Ht as [Ht|Ht]; rewrite Ht in Hal).
  assert (Halive : alive h2 d = true).
  { apply alive_true. destruct (decide (d = i)) as [->|]; [eauto|]. rewrite L2; [eauto|done|]. pose proof (inv_lt h HI d nd Hd). subst c. lia. }
  assert (Hdp : document_of h2 p = Some d).
  { rewrite (document_of_eq h2 p np Hp2). assert (E' : is_type NDocument np = false) by (by apply is_type_false). rewrite E', <- How by done. done. }
  assert (Hdc : document_of h2 c = Some d).
  { rewrite (document_of_eq h2 c _ Hc2). assert (E' : is_type NDocument (split_off n1 r None) = false) by (apply is_type_false; cbn; tauto). rewrite E'. done. }
  assert (Hpc2 : parent_node h2 c = Ok None) by (by rewrite (parent_node_eq h2 c _ Hc2)).
  assert (Hperm : permitted h2 p c) by (by apply (permitted_iff h2 p c np (split_off n1 r None))).
  destruct (insert_returns h2 p c (head l2) np (split_off n1 r None) HI2 Hp2 Hc2 Hpc) as (h3 & x & Hins & Hx); [congruence|congruence|].
  assert (x = Ok c) as ->.
  { destruct (insert_before_inv h2 h3 p c _ x HI2 Hins Hx) as (np' & nc' & Hpq & Hcq & [(e & -> & -> & Hfl)|(-> & _)]); [|done].
    exfalso. assert (np' = np) by congruence. assert (nc' = split_off n1 r None) by congruence. subst np' nc'.
    pose proof (fails_refused h2 p c _ np _ e HI2 Hp2 Hc2 Hfl) as Hrf. destruct Hrf as [Hrf|_ Hse|y _ _ Hy Hny|_ _ _ Hdiff|q _ _ _ _ Hq _]; [done|..].
    - destruct Hse as ((m & Hm & Htm)%node_type_ok & _). congruence.
    - apply Hny. apply (child_iff h2 p np); [done|]. rewrite Hch, in_app_iff. right. right. destruct l2 as [|z l2]; [done|]. injection Hy as <-. by left.
    - congruence.
    - congruence. }
  destruct (insert_ok h2 h3 p c _ c HI2 Hins) as (_ & np0 & nc0 & l0 & k & np' & nc' & [Kp Kc Kp' Kc' Kne Ksp Ksc Kpar Kal Kl0 Kl0' Kch Kk Kfr Kold Knx _ _ _]).
  assert (np0 = np) by congruence. assert (nc0 = split_off n1 r None) by congruence. subst np0 nc0.
  exists h3, np, np'. split.
  { unfold split_tail. unfold bind at 1, getM, lift at 1. rewrite (get_node_some _ _ _ Hn1). unfold bind at 1. rewrite Hnew.
    rewrite bind_allocM. fold h2. unfold bind at 1, lift at 1.
    assert (Hp3 : parent_node h2 i = Ok (Some p)) by (apply Hco2; rewrite in_app_iff; right; by left). rewrite Hp3.
    unfold bind at 1, lift at 1. rewrite Hns. unfold bind at 1. change (h_next h1) with c. by rewrite Hins. }
  split. { rewrite Kfr; [done|done|subst c; lia|by rewrite Hpc2]. }
  split. { rewrite Kc'. f_equal. destruct Ksc as (E1 & E2 & E3 & E4 & E5 & E6). destruct nc'. cbn in *. subst. done. }
  split; [done|]. split; [done|]. split; [done|]. split.
  - apply child_nodes_ok. exists np'. split; [done|]. assert (El : l0 = l1 ++ i :: l2) by (rewrite Kl0'; [done|by rewrite Hpc2]). subst l0. rewrite Kch. rewrite Hch in Kk.
    assert (Hlen : k = length (l1 ++ [i])).
    { destruct l2 as [|y l2]; cbn [head] in Kk; [by rewrite Kk|]. destruct Kk as [Kk _].
      rewrite (lookup_position (l1 ++ i :: y :: l2) (length (l1 ++ [i])) y) in Kk; [by injection Kk|done|].
      replace (l1 ++ i :: y :: l2) with ((l1 ++ [i]) ++ y :: l2) by (by rewrite <- app_assoc). by rewrite list_lookup_middle. }
    subst k. replace (l1 ++ i :: l2) with ((l1 ++ [i]) ++ l2) by (by rewrite <- app_assoc). by rewrite place_before, <- app_assoc.
  - intros j H1 H2 H3. rewrite Kfr; [by apply L2|done|done|by rewrite Hpc2].
Qed.
Print Assumptions C20_in_place.
Example C20_example :
  let h := default empty_heap (run env0 (ex_data_ops ++ [OCreateElement 0 (lit "e"); OAppendChild 5 1; OCreateText 0 (lit "z"); OAppendChild 5 6]) empty_heap) in
  cut NText (104%N :: 233%N :: lit "llo") 3 [104%N; 233%N] (lit "llo") /\
  (exists h', DomOps.split env0 1 3 h = (h', Ok 7) /\ child_nodes h' 5 = Ok [1; 7; 6] /\ node_value h' 1 = Ok (Some [104%N; 233%N]) /\ node_value h' 7 = Ok (Some (lit "llo")))
  /\ (exists h', DomOps.split env0 1 60 h = (h', Ok 7) /\ child_nodes h' 5 = Ok [1; 7; 6] /\ node_value h' 7 = Ok (Some [])).
Proof.
  split; [|split; eexists; (split; [by vm_compute|by vm_compute])].
  split; [done|]. left. split; [done|]. intros _ c Hc. cbn in Hc. unfold special. intuition (subst; done).
Qed.
