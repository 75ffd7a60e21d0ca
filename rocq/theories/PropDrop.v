(** * Property C56: nodes that have been freed *)
From Coq Require Import Lia.
From Verif Require Import SpecTree ProofText ProofAttr ProofInv ProofSteps ProofOps ProofTree ProofInsert ProofElem PropTree PropInsert.

(** The answer of a lookup through a weak link, after the nodes in [l] have been freed. *)
Definition kept (l : list id) (r : res (option id)) : res (option id) :=
  match r with Ok (Some x) => if bool_decide (x ∈ l) then Ok None else Ok (Some x) | _ => r end.

Lemma dropped_upgrade l h w : upgrade (dropped l h) w = match upgrade h w with Some x => if bool_decide (x ∈ l) then None else Some x | None => None end.
Proof.
  destruct w as [i|]; [|done]. cbn. unfold alive. destruct (h_nodes (dropped l h) !! i) as [n|] eqn:Hn.
  - apply lookup_dropped in Hn as [Hni Hn]. rewrite Hn. by rewrite bool_decide_eq_false_2.
  - destruct (h_nodes h !! i) as [n|] eqn:Hn'; [|done]. rewrite bool_decide_eq_true_2; [done|]. destruct (decide (i ∈ l)) as [|Hni]; [done|].
    rewrite (proj2 (lookup_dropped l h i n)) in Hn; [done|]. by split.
Qed.

(** Freeing nodes changes nothing else: what was held is still there, and the weak links to freed nodes are answered with [None]. *)
Theorem C56_drop : forall h h' l, drop_nodes l h = (h', Ok tt) ->
  (forall i, alive h' i = true <-> alive h i = true /\ ~ In i l) /\
  forall i, alive h' i = true -> node_type_of h' i = node_type_of h i /\ node_name h' i = node_name h i /\ node_value h' i = node_value h i /\
    child_nodes h' i = child_nodes h i /\ attributes h' i = attributes h i /\
    parent_node h' i = kept l (parent_node h i) /\ owner_document h' i = kept l (owner_document h i) /\
    owner_element h' i = kept l (owner_element h i) /\ forall k, get_element_by_id h' i k = kept l (get_element_by_id h i k).
Proof.
  intros h h' l H. unfold drop_nodes in H. destruct (bool_decide (can_drop h l)); [|done]. injection H as <-. fold (dropped l h).
  assert (Hal : forall i, alive (dropped l h) i = true <-> alive h i = true /\ ~ In i l).
  { intros i. rewrite !alive_true. split.
    - intros [n [Hni Hn]%lookup_dropped]. rewrite <- elem_of_list_In. eauto.
    - intros [[n Hn] Hni]. exists n. apply lookup_dropped. by rewrite elem_of_list_In. }
  split; [done|]. intros i Hi. apply alive_true in Hi as [n Hn]. pose proof Hn as [Hni Hn0]%lookup_dropped.
  unfold node_type_of, node_name, node_value, child_nodes, attributes, parent_node, owner_document, owner_element, get_element_by_id.
  rewrite (get_node_some _ _ _ Hn), (get_node_some _ _ _ Hn0). cbn [rbind]. split_and!; try done.
  - rewrite dropped_upgrade. destruct (is_type NAttribute n); [done|]. destruct (upgrade h (n_parent n)); [|done]. cbn. by destruct (bool_decide _).
  - rewrite dropped_upgrade. destruct (upgrade h (n_owner n)); [|done]. cbn. by destruct (bool_decide _).
  - destruct (n_ext n) as [|o| | | | |]; try done. rewrite dropped_upgrade. destruct (upgrade h o); [|done]. cbn. by destruct (bool_decide _).
  - intros k. destruct (n_ext n) as [| |a b m o| | | |]; try done. rewrite dropped_upgrade. destruct (upgrade h (hm_get k m)); [|done]. cbn. by destruct (bool_decide _).
Qed.
Print Assumptions C56_drop.

Lemma upgrade_inv h w x : upgrade h w = Some x -> w = Some x /\ exists n, h_nodes h !! x = Some n.
Proof. destruct w as [i|]; [|done]. cbn. destruct (alive h i) eqn:Ha; [|done]. intros [= ->]. split; [done|]. by apply alive_true. Qed.

(** Whatever node a call answers with is there, and of the right kind. *)
Theorem C56_never_wrong : forall h i, reachable h ->
  (forall l c, child_nodes h i = Ok l -> In c l -> alive h c = true) /\
  (forall l k a, attributes h i = Ok l -> In (k, a) l -> node_type_of h a = Ok NAttribute) /\
  (forall p, parent_node h i = Ok (Some p) -> alive h p = true) /\
  (forall d, owner_document h i = Ok (Some d) -> node_type_of h d = Ok NDocument) /\
  (forall e, owner_element h i = Ok (Some e) -> node_type_of h e = Ok NElement) /\
  (forall k e, get_element_by_id h i k = Ok (Some e) -> node_type_of h e = Ok NElement).
Proof.
  intros h i Hr. pose proof (reachable_inv h Hr) as HI.
  assert (T : forall x n t, h_nodes h !! x = Some n -> n_type n = t -> node_type_of h x = Ok t) by (intros x n t Hx Ht; apply node_type_ok; eauto).
  destruct (h_nodes h !! i) as [n|] eqn:Hn.
  2:{ unfold child_nodes, attributes, parent_node, owner_document, owner_element, get_element_by_id, get_node. rewrite Hn. by split_and!. }
  destruct (inv_node h HI i n Hn) as (Hx & Ho & _ & [Hc _] & _). split_and!.
  - intros l c (n' & Hn' & <-)%child_nodes_ok Hin. assert (n' = n) as -> by congruence. destruct (Hc c Hin) as (_ & s & Hs & _). apply info_inv in Hs as (nc & Hnc & _). apply alive_true. eauto.
  - intros l k a Ha Hin. unfold attributes in Ha. rewrite (get_node_some _ _ _ Hn) in Ha. cbn [rbind] in Ha. injection Ha as <-. destruct (is_type NElement n); [|done].
    unfold ext_ok in Hx. destruct (n_ext n) as [| | | |attrs nss| |]; try done. destruct Hx as (_ & _ & Ha & _). destruct (Ha k a Hin) as (s & Hs & Ht & _).
    apply info_inv in Hs as (na & Hna & <-). by eapply T.
  - unfold parent_node. rewrite (get_node_some _ _ _ Hn). cbn [rbind]. destruct (is_type NAttribute n); [done|]. intros p [= [_ Hp]%upgrade_inv]. by apply alive_true.
  - unfold owner_document. rewrite (get_node_some _ _ _ Hn). cbn [rbind]. intros d [= [Hd (nd & Hnd)]%upgrade_inv]. unfold owner_ok in Ho.
    assert (exists d', n_owner n = Some d' /\ (d' < h_next h)%nat /\ forall s, info h d' = Some s -> s_type s = NDocument) as (d' & Hd' & _ & Hs) by (destruct (n_type n); try done; congruence).
    assert (d' = d) as -> by congruence. eapply T; [done|]. by apply (Hs _ (info_some _ _ _ Hnd)).
  - unfold owner_element. rewrite (get_node_some _ _ _ Hn). cbn [rbind]. unfold ext_ok in Hx. destruct (n_ext n) as [|o| | | | |]; try done. intros e [= [He (ne & Hne)]%upgrade_inv].
    destruct Hx as (_ & Hx). destruct (Hx e He) as [_ Hs]. eapply T; [done|]. by apply (Hs _ (info_some _ _ _ Hne)).
  - unfold get_element_by_id. rewrite (get_node_some _ _ _ Hn). cbn [rbind]. unfold ext_ok in Hx. destruct (n_ext n) as [| |a b m o| | | |]; try done.
    intros k e [= [He (ne & Hne)]%upgrade_inv]. destruct Hx as (_ & _ & Hx). destruct (Hx k e) as [_ Hs]; [by apply hm_get_in|]. eapply T; [done|]. by apply (Hs _ (info_some _ _ _ Hne)).
Qed.
Print Assumptions C56_never_wrong.

(** The document of a node is the same for ever, until it is freed; then there is none for ever. *)
Theorem C56_owner_document : forall h h' i o, reachable h -> later h h' -> alive h' i = true -> owner_document h i = Ok o ->
  owner_document h' i = Ok (match o with Some d => if alive h' d then Some d else None | None => None end).
Proof.
  intros h h' i o Hr Hl Ha' Ho. assert (Ha : alive h i = true).
  { unfold owner_document in Ho. destruct (get_node h i) as [n| | |] eqn:Hn; try done. apply alive_true. unfold get_node in Hn. destruct (h_nodes h !! i) eqn:Hx; [eauto|done]. }
  pose proof (C24_identity_api h h' i Hr Hl Ha Ha') as (_ & _ & Hd).
  assert (Hback : forall d n, h_nodes h' !! d = Some n -> (d < h_next h)%nat -> exists m, h_nodes h !! d = Some m).
  { intros d n Hd' Hlt. pose proof (isteps_info_back _ _ _ d _ (later_isteps h h' Hr Hl) (info_some _ _ _ Hd') Hlt) as Hi. apply info_inv in Hi as (m & Hm & _). eauto. }
  apply alive_true in Ha as [n Hn]. apply alive_true in Ha' as [n' Hn']. destruct (C24_identity h h' i n n' Hr Hl Hn Hn') as (_ & _ & Hown).
  unfold owner_document in *. rewrite (get_node_some _ _ _ Hn) in Ho. rewrite (get_node_some _ _ _ Hn'). cbn [rbind] in *. injection Ho as <-. rewrite Hown.
  destruct (n_owner n) as [d|] eqn:Hd'; [|done]. cbn. destruct (alive h d) eqn:Had; [done|]. destruct (alive h' d) eqn:Had'; [|done]. exfalso.
  apply alive_true in Had' as [nd Hnd]. destruct (inv_node h (reachable_inv h Hr) i n Hn) as (_ & Hoo & _). unfold owner_ok in Hoo.
  assert (Hlt : (d < h_next h)%nat) by (destruct (n_type n); try congruence; destruct Hoo as (d1 & E & ? & _); congruence).
  destruct (Hback d nd Hnd Hlt) as [m Hm]. unfold alive in Had. by rewrite Hm in Had.
Qed.
Print Assumptions C56_owner_document.

(** Without the document no node can be put under another: where the call would not be refused by an earlier check, it panics; the
    state is unchanged. *)
Lemma insert_gone h p c r d : Inv h -> permitted h p c -> ~ second_element h p c -> (forall x, r = Some x -> child h p x) ->
  document_of h p = Some d \/ document_of h c = Some d -> alive h d = false -> insert_before p c r h = (h, Panic PUnwrap).
Proof.
  intros HI Hper Hsec Href Hdoc Hd.
  pose proof Hper as (tp & tc & (np & Hp & _)%node_type_ok & (nc & Hc & _)%node_type_ok & _).
  apply (permitted_iff h p c np nc Hp Hc) in Hper as Hal. apply (second_iff h p c np nc Hp Hc) in Hsec.
  destruct (child_type_docs _ _ Hal) as (Hd1 & Hd2 & Hd3 & Hd4).
  unfold insert_before. rewrite (bind_node _ _ _ _ Hp), (bind_node _ _ _ _ Hc), Hal. cbn [negb].
  assert (Hany : (if is_type NDocument np && is_type NElement nc then lift (fun h => any_element h (n_children np)) else ret false) h = (h, Ok false)).
  { destruct (is_type NDocument np && is_type NElement nc) eqn:Hb; [|done]. apply andb_true_iff in Hb as [Hb1%is_type_true Hb2%is_type_true]. unfold lift. f_equal.
    destruct (inv_node h HI p np Hp) as (_ & _ & _ & [H4 _] & _). specialize (Hsec Hb1 Hb2). clear -Hsec H4.
    induction (n_children np) as [|x l IH]; [done|]. cbn. destruct (H4 x ltac:(by left)) as (_ & s & (nx & Hnx & _)%info_inv & _). rewrite (get_node_some _ _ _ Hnx). cbn [rbind].
    assert (is_type NElement nx = false) as -> by (apply is_type_false; apply (Hsec x nx); [by left|done]). apply IH; [|intros; apply H4; by right]. intros y ny Hy. apply Hsec. by right. }
  rewrite (bind_ok _ _ _ _ _ Hany).
  assert (Hcsd : check_same_document h p c = Panic PUnwrap).
  { unfold check_same_document. rewrite (get_node_some _ _ _ Hp), (get_node_some _ _ _ Hc). cbn [rbind].
    destruct (owner_some h c nc HI Hc Hd1 Hd2) as (dc & Hdc & _). rewrite (document_of_eq _ _ _ Hp), (document_of_eq _ _ _ Hc), Hdc in Hdoc.
    assert (is_type NDocument nc = false) as Hnd by (by apply is_type_false). rewrite Hnd in Hdoc. rewrite Hdc.
    destruct (is_type NDocument np) eqn:Hpd.
    - destruct Hdoc as [[= ->]|[= ->]]; [exfalso; unfold alive in Hd; by rewrite Hp in Hd|]. cbn. by rewrite Hd.
    - destruct (n_owner np) as [dp|] eqn:Hdp; cbn.
      + destruct Hdoc as [[= ->]|[= ->]]; [by rewrite Hd|]. destruct (alive h dp); cbn; [by rewrite Hd|done].
      + exfalso. apply is_type_false in Hpd. destruct (inv_node h HI p np Hp) as (_ & Hoo & _). unfold owner_ok in Hoo. destruct (n_type np); try done; destruct Hoo as (x & Hx & _); congruence. }
  destruct r as [y|].
  - pose proof (Href y eq_refl) as Hin. apply (child_iff h p np y Hp) in Hin. destruct (position_some y (n_children np) Hin) as [k ->]. unfold bind, ret, lift. by rewrite Hcsd.
  - unfold bind, ret, lift. by rewrite Hcsd.
Qed.
Theorem C56_insert_panics : forall h p c r d, reachable h -> permitted h p c -> ~ second_element h p c -> (forall x, r = Some x -> child h p x) ->
  document_of h p = Some d \/ document_of h c = Some d -> alive h d = false -> insert_before p c r h = (h, Panic PUnwrap).
Proof. intros h p c r d Hr. by apply insert_gone, reachable_inv. Qed.
Print Assumptions C56_insert_panics.
(** And on live nodes an insertion panics only then, or when a node is put under itself. *)
Theorem C56_insert_panics_only : forall h h' p c r q, reachable h -> alive h p = true -> alive h c = true -> insert_before p c r h = (h', Panic q) ->
  p = c \/ exists d, (document_of h p = Some d \/ document_of h c = Some d) /\ alive h d = false.
Proof.
  intros h h' p c r q Hr Hp Hc H. destruct (decide (p = c)) as [|Hne]; [by left|right].
  destruct (document_of h p) as [dp|] eqn:Hdp.
  - destruct (alive h dp) eqn:Hap; [|by exists dp; split; [left|]]. destruct (document_of h c) as [dc|] eqn:Hdc.
    + destruct (alive h dc) eqn:Hac; [|by exists dc; split; [right|]].
      destruct (C31_returns h p c r Hr Hp Hc Hne) as (h1 & x & H1 & Hx); [congruence|congruence|]. rewrite H in H1. injection H1 as _ <-. destruct Hx as [[? ?]|[? ?]]; done.
    + destruct (C31_returns h p c r Hr Hp Hc Hne) as (h1 & x & H1 & Hx); [congruence|congruence|]. rewrite H in H1. injection H1 as _ <-. destruct Hx as [[? ?]|[? ?]]; done.
  - destruct (document_of h c) as [dc|] eqn:Hdc.
    + destruct (alive h dc) eqn:Hac; [|by exists dc; split; [right|]].
      destruct (C31_returns h p c r Hr Hp Hc Hne) as (h1 & x & H1 & Hx); [congruence|congruence|]. rewrite H in H1. injection H1 as _ <-. destruct Hx as [[? ?]|[? ?]]; done.
    + destruct (C31_returns h p c r Hr Hp Hc Hne) as (h1 & x & H1 & Hx); [congruence|congruence|]. rewrite H in H1. injection H1 as _ <-. destruct Hx as [[? ?]|[? ?]]; done.
Qed.
Print Assumptions C56_insert_panics_only.

(** An element with an attribute and a child, and a second element; then the document goes away. *)
Definition ex_drop_ops : list op :=
  [OCreateDocument None None None options_new; OCreateElement 0 (lit "a"); OCreateElement 0 (lit "b"); OCreateElement 0 (lit "c");
   OAppendChild 1 2; OSetAttribute 1 (lit "xml:id") (lit "i"); ODrop [0]].
Definition ex_drop : heap := default empty_heap (run env0 ex_drop_ops empty_heap).
Lemma ex_drop_reachable : reachable ex_drop.
Proof. apply (run0_reachable ex_drop_ops). by vm_compute. Qed.
Example C56_example : reachable ex_drop /\ alive ex_drop 0 = false /\ owner_document ex_drop 1 = Ok None /\ parent_node ex_drop 2 = Ok (Some 1) /\
  child_nodes ex_drop 1 = Ok [2] /\ append_child 1 3 ex_drop = (ex_drop, Panic PUnwrap) /\ (exists h', remove_child 1 2 ex_drop = (h', Ok 2)) /\
  permitted ex_drop 1 3 /\ ~ second_element ex_drop 1 3 /\ document_of ex_drop 1 = Some 0.
Proof.
  split; [apply ex_drop_reachable|]. do 5 (split; [by vm_compute|]). split; [eexists; by vm_compute|]. split; [|split; [|by vm_compute]].
  - exists NElement, NElement. split; [by vm_compute|]. split; [by vm_compute|]. cbn. tauto.
  - intros (H & _). by vm_compute in H.
Qed.
(** An element goes away while a document still has it in its id map, and an attribute its element. *)
Definition ex_drop2 : heap := default empty_heap (run env0
  [OCreateDocument None None None options_new; OCreateElement 0 (lit "a"); OSetAttribute 1 (lit "xml:id") (lit "i"); OSetAttribute 1 (lit "k") (lit "v")] empty_heap).
Example C56_weak_example : exists h', drop_nodes [1] ex_drop2 = (h', Ok tt) /\
  get_element_by_id ex_drop2 0 (lit "i") = Ok (Some 1) /\ get_element_by_id h' 0 (lit "i") = Ok None /\
  owner_element ex_drop2 3 = Ok (Some 1) /\ owner_element h' 3 = Ok None /\ (drop_nodes [3] ex_drop2).2 = Panic PNoHandle.
Proof. eexists. split; [by vm_compute|]. by vm_compute. Qed.
