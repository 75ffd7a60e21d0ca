(** * Property C57: calls that return, and calls that never do *)
From Coq Require Import Lia.
From Verif Require Import SpecWalk SpecNs SpecShow ProofText ProofAttr ProofInv ProofSteps ProofOps ProofTree ProofElem ProofWalk ProofShow PropTree PropWalk PropClone PropNs.

#[local] Opaque normalize_attribute_value.

(** ** Without cycles *)
Lemma attr_value_ends E h a : wf_env E -> attr_value E h a <> Diverge.
Proof.
  intros W. unfold attr_value. unfold get_node. destruct (h_nodes h !! a) as [n|]; [|done]. cbn [rbind]. destruct (is_nil (n_children n)); [done|].
  assert (Ht : attr_text h (n_children n) <> Diverge).
  { induction (n_children n) as [|c l IH]; [done|]. cbn. unfold get_node. destruct (h_nodes h !! c); [|done]. cbn. by destruct (attr_text h l). }
  destruct (attr_text h (n_children n)) as [raw| | |]; try done. cbn [rbind]. change entity_fuel with (S 63).
  destruct (expands_or_blocked E W (normalize_eol raw)) as [[t Hx]|Hx].
  - by rewrite (normalize_expands E W h a 63 false raw t Hx).
  - destruct (normalize_blocked E W h a 63 false raw Hx) as [p ->]. done.
Qed.
Lemma concat_res_ends {A B} (f : A -> res (list B)) l : (forall x, In x l -> f x <> Diverge) -> concat_res f l <> Diverge.
Proof.
  induction l as [|x l IH]; intros H; [done|]. cbn. pose proof (H x ltac:(by left)) as Hx. destruct (f x); try done. cbn [rbind].
  assert (Hl : concat_res f l <> Diverge) by (apply IH; intros y Hy; apply H; by right). by destruct (concat_res f l).
Qed.
Lemma fmt_list_ends {A} (f : A -> res str) l : (forall x, In x l -> f x <> Diverge) -> fmt_list f l <> Diverge.
Proof.
  intros H. unfold fmt_list. assert (Hc : concat_res (fun x => let? s := f x in Ok [s]) l <> Diverge).
  { apply concat_res_ends. intros x Hx. specialize (H x Hx). by destruct (f x). }
  by destruct (concat_res _ l).
Qed.
Lemma fmt_ends E h i t : Inv h -> wf_env E -> tree_of h i t -> forall fuel, (depth t < fuel)%nat -> fmt_node fuel E h i <> Diverge.
Proof.
  intros HI HE. revert i t. apply (tree_of_ind' h (fun i t => forall fuel, (depth t < fuel)%nat -> fmt_node fuel E h i <> Diverge)).
  intros i cs ts (n & Hn & <-)%child_nodes_ok _ IH fuel Hf. destruct fuel as [|k]; [lia|].
  assert (Hk1 : exists k1, k = S k1) by (cbn in Hf; destruct k as [|k1]; [lia|eauto]).
  assert (L : fmt_list (fmt_node k E h) (n_children n) <> Diverge).
  { apply fmt_list_ends. intros c Hin.
    assert (Hd : forall t, In t ts -> (depth t < k)%nat) by (intros t Ht; pose proof (depth_child t ts i Ht); lia).
    clear -IH Hin Hd. induction IH as [|c' t cs ts Hc' _ IHf]; [done|].
    destruct Hin as [<-|Hin]; [eapply Hc'; apply Hd; by left|]. apply IHf; [done|]. intros; apply Hd; by right. }
  assert (HA : forall a na, h_nodes h !! a = Some na -> n_type na = NAttribute -> fmt_attribute E h a <> Diverge).
  { intros a na Hna _. unfold fmt_attribute. rewrite (get_node_some _ _ _ Hna). cbn [rbind]. pose proof (attr_value_ends E h a HE). by destruct (attr_value E h a). }
  assert (Hnil : e_ord_attr E [] = []) by (apply Permutation_nil; symmetry; apply (wf_ord_attr E HE)).
  destruct (inv_node h HI i n Hn) as (Hx & _).
  assert (HD : forall t nt f, h_nodes h !! t = Some nt -> n_type nt = NDocumentType -> fmt_node (S f) E h t <> Diverge).
  { intros t nt f Hnt Ht. cbn [fmt_node]. rewrite (get_node_some _ _ _ Hnt). cbn [rbind]. rewrite Ht. destruct (inv_node h HI t nt Hnt) as (Hxt & _). unfold ext_ok in Hxt. rewrite Ht in Hxt.
    destruct (n_ext nt) as [| | |es ns pub sys sub| | |]; try done; try (by destruct Hxt). destruct Hxt as (_ & -> & ->). rewrite Hnil. done. }
  cbn [fmt_node]. rewrite (get_node_some _ _ _ Hn). cbn [rbind]. destruct (n_type n) eqn:Ht; try done.
  - destruct (attributes h i) as [attrs| | |] eqn:Ha; try done; [|unfold attributes in Ha; by rewrite (get_node_some _ _ _ Hn) in Ha]. cbn [rbind].
    assert (HL : fmt_list (fun p => let? s := fmt_node k E h p.2 in Ok (lit " " ++ s)) (e_ord_attr E attrs) <> Diverge).
    { apply fmt_list_ends. intros [k' a] Hin. rewrite (In_perm _ _ _ (wf_ord_attr E HE attrs)) in Hin. destruct (attrs_inv h i n attrs HI Hn Ha _ _ Hin) as (na & Hna & Hta & _).
      destruct Hk1 as [k1 ->]. cbn [snd fmt_node]. rewrite (get_node_some _ _ _ Hna). cbn [rbind]. rewrite Hta. pose proof (HA a na Hna Hta). by destruct (fmt_attribute E h a). }
    destruct (fmt_list _ (e_ord_attr E attrs)); try done. cbn [rbind]. by destruct (fmt_list _ (n_children n)).
  - by eapply HA.
  - unfold fmt_text, data. rewrite (get_node_some _ _ _ Hn). done.
  - unfold fmt_cdata, data. rewrite (get_node_some _ _ _ Hn). done.
  - unfold fmt_comment, data. rewrite (get_node_some _ _ _ Hn). done.
  - unfold xml_declaration, doc_type. rewrite (get_node_some _ _ _ Hn). cbn [rbind]. unfold ext_ok in Hx. rewrite Ht in Hx.
    destruct (n_ext n) as [| |decl dt m o| | | |]; try done; try (by destruct Hx). destruct Hx as (_ & Hdt & _). cbn [rbind]. destruct dt as [t|].
    + destruct (Hdt t eq_refl) as (st & Hst & Htt). apply info_inv in Hst as (nt & Hnt & <-). destruct Hk1 as [k1 ->]. pose proof (HD t nt k1 Hnt Htt).
      destruct (fmt_node (S k1) E h t); try done. cbn [rbind]. by destruct (fmt_list _ (n_children n)).
    + cbn [rbind]. by destruct (fmt_list _ (n_children n)).
  - pose proof (HD i n k Hn Ht) as H. cbn [fmt_node] in H. rewrite (get_node_some _ _ _ Hn) in H. cbn [rbind] in H. by rewrite Ht in H.
  - by destruct (fmt_list _ (n_children n)).
Qed.

(** Every walk ends when the tree below the node has no cycle: for the searches and the clone with an answer, for Display with the
    string or a panic (of an attribute value, C05 and C06). *)
Theorem C57_walks_end : forall E h i tag uri local, reachable h -> wf_env E -> alive h i = true -> no_cycle_below h i ->
  (exists l, get_elements_by_tag_name h i tag = Ok l) /\ (exists l, get_elements_by_tag_name_ns h i uri local = Ok l) /\
  (exists h' j, clone_node true i h = (h', Ok j)) /\ to_string E h i <> Diverge.
Proof.
  intros E h i tag uri local Hr HE Ha Hnc. pose proof (reachable_inv h Hr) as HI. apply alive_true in Ha as [n Hn].
  destruct (tree_exists h i HI (ex_intro _ n Hn) Hnc) as (t & Ht & Hd).
  assert (HS : forall p, exists l, search_elements (walk_fuel h) h p i = Ok l).
  { intros p. eexists. apply (search_tree h p i t HI Ht). unfold walk_fuel. lia. }
  split; [apply HS|]. split; [apply HS|]. split.
  - assert (Hk : keys_lt h) by (intros j nj; by apply inv_lt).
    destruct (clone_tree h i t Ht (walk_fuel h) h) as (h1 & j & t' & Hc & _); [unfold walk_fuel; lia|apply only_added_refl|done|]. exists h1, j. exact Hc.
  - apply (fmt_ends E h i t HI HE Ht). unfold walk_fuel. lia.
Qed.
Print Assumptions C57_walks_end.
(** So do the namespace lookups along the parents: with an answer, or the panic of C45 when a parent was freed. *)
Theorem C57_lookups_end : forall E h i p u, reachable h -> wf_env E -> alive h i = true -> acyclic h ->
  resolve_namespace h i p <> Diverge /\ resolve_prefix E h i u <> Diverge.
Proof.
  intros E h i p u Hr HE Ha Hac.
  assert (Hdec : aware h i \/ ~ aware h i).
  { apply alive_true in Ha as [n Hn]. destruct (add_namespaces h i) as [[]| | |] eqn:Hb.
    - left. unfold add_namespaces, owner_document in Hb. rewrite (get_node_some _ _ _ Hn) in Hb. cbn [rbind] in Hb. destruct (n_owner n) as [d|] eqn:Ho; [|done]. cbn in Hb.
      destruct (alive h d) eqn:Hd; [|done]. apply alive_true in Hd as [nd Hnd]. rewrite (get_node_some _ _ _ Hnd) in Hb. cbn [rbind] in Hb. injection Hb as Hb.
      destruct (n_ext nd) as [| |a b m o| | | |] eqn:Hx; try done. exists n, d, nd, a, b, m, o. done.
    - right. intros Haw. rewrite (add_namespaces_true h i Haw) in Hb. done.
    - right. intros Haw. rewrite (add_namespaces_true h i Haw) in Hb. done.
    - right. intros Haw. rewrite (add_namespaces_true h i Haw) in Hb. done.
    - right. intros Haw. rewrite (add_namespaces_true h i Haw) in Hb. done. }
  destruct Hdec as [Haw|Haw].
  - split.
    + destruct (C45_ends h i p Hr Hac Ha) as [e He]. pose proof (C45_resolve h i p e Hr Haw He) as H. destruct e as [j| |]; [destruct H as (v & _ & ->); done|by rewrite H|by rewrite H].
    + apply alive_true in Ha as [n Hn]. pose proof (reachable_inv h Hr) as HI.
      destruct (climbs_total h HI (fun j => exists q, maps h j q u) Hac) with (i := i) (n := n) as [e He]; [|done|].
      { intros j. destruct (h_nodes h !! j) as [nj|] eqn:Hj.
        - destruct (n_ext nj) as [| | | |attrs nss| |] eqn:Hx; try (right; intros (q & n' & a & nss' & Hn' & Hx' & _); congruence).
          destruct (decide (u ∈ map snd nss)) as [Hin|Hin].
          + left. apply elem_of_list_In, in_map_iff in Hin as ([q v] & Hq & Hin). cbn in Hq. subst v. exists q, nj, attrs, nss. done.
          + right. intros (q & n' & a & nss' & Hn' & Hx' & Hin'). apply Hin, elem_of_list_In, in_map_iff. exists (q, u). split; [done|]. congruence.
        - right. intros (q & n' & a & nss' & Hn' & _). congruence. }
      pose proof (C46_resolve_prefix E h i u e HE Hr Haw He) as H. destruct e as [j| |].
      * destruct H as (r & -> & _). done.
      * by rewrite H.
      * by rewrite H.
  - destruct (C45_unaware E h i p u Ha Haw) as (-> & _ & _ & _ & -> & _). done.
Qed.
Print Assumptions C57_lookups_end.

(** ** On a cycle *)
Definition returns {A} (r : res A) : Prop := (exists a, r = Ok a) \/ exists e, r = Err e.
(** Elements below elements. *)
Definition elem_child (h : heap) (a b : id) : Prop := child h a b /\ node_type_of h a = Ok NElement /\ node_type_of h b = Ok NElement.
(** From [i] one comes, going down, to a node that is below itself. *)
Definition meets_cycle (R : id -> id -> Prop) (i : id) : Prop := exists x, rtc R i x /\ tc R x x.
Lemma meets_step R i : meets_cycle R i -> exists j, R i j /\ meets_cycle R j.
Proof.
  intros (x & Hx & Hcy). apply rtc_inv in Hx as [<-|(j & Hj & Hx)].
  - inversion Hcy as [x' y Hy|x' y z Hy Hz]; subst; [exists i|exists y]; (split; [done|]); exists i; split; try done. by apply tc_rtc.
  - exists j. split; [done|]. by exists x.
Qed.
Lemma concat_res_diverge {A B} (f : A -> res (list B)) l x : In x l -> (forall y, In y l -> f y = Diverge \/ exists r, f y = Ok r) -> f x = Diverge -> concat_res f l = Diverge.
Proof.
  induction l as [|y l IH]; [done|]. intros Hin H Hx. cbn. destruct (H y ltac:(by left)) as [->|[r Hr]]; [done|]. rewrite Hr. cbn [rbind].
  destruct Hin as [->|Hin]; [congruence|]. rewrite IH; [done|done| |done]. intros z Hz. apply H. by right.
Qed.
(** The searches, whatever the number of recursive calls granted. *)
Theorem C57_search_never_returns : forall h i, reachable h -> meets_cycle (elem_child h) i -> forall p fuel, search_elements fuel h p i = Diverge.
Proof.
  intros h i Hr Hc p fuel. pose proof (reachable_inv h Hr) as HI.
  assert (HT : forall fuel i n, h_nodes h !! i = Some n -> search_elements fuel h p i = Diverge \/ exists l, search_elements fuel h p i = Ok l).
  { clear -HI. induction fuel as [|k IH]; intros i n Hn; [by left|]. cbn [search_elements]. rewrite (get_node_some _ _ _ Hn). cbn [rbind]. destruct (is_type NElement n); [|by eauto].
    assert (Hl : forall c, In c (n_children n) -> exists nc, h_nodes h !! c = Some nc).
    { intros c Hin. eapply inv_child_alive; [done|]. exists (n_children n). split; [by apply child_nodes_some|done]. }
    assert (H : concat_res (fun c => let? nc := get_node h c in if is_type NElement nc then search_elements k h p c else Ok []) (n_children n) = Diverge \/
      exists l, concat_res (fun c => let? nc := get_node h c in if is_type NElement nc then search_elements k h p c else Ok []) (n_children n) = Ok l).
    { clear Hn. induction (n_children n) as [|c l IHl]; [by right; eexists|]. cbn. destruct (Hl c ltac:(by left)) as [nc Hnc]. rewrite (get_node_some _ _ _ Hnc). cbn [rbind].
      assert (H1 : (if is_type NElement nc then search_elements k h p c else Ok []) = Diverge \/ exists l, (if is_type NElement nc then search_elements k h p c else Ok []) = Ok l).
      { destruct (is_type NElement nc); [by eapply IH|by right; eexists]. }
      destruct H1 as [->|[l1 ->]]; [by left|]. cbn [rbind]. destruct IHl as [->|[l2 ->]]; [intros; apply Hl; by right|by left|right; by eexists]. }
    destruct H as [->|[l ->]]; [by left|right; by eexists]. }
  revert i Hc. induction fuel as [|k IH]; intros i Hc; [done|].
  destruct (meets_step _ _ Hc) as (j & ((l & (n & Hn & <-)%child_nodes_ok & Hin) & (n' & Hn' & Ht)%node_type_ok & (nj & Hnj & Htj)%node_type_ok) & Hcj).
  assert (n' = n) as -> by congruence. cbn [search_elements]. rewrite (get_node_some _ _ _ Hn). cbn [rbind]. apply is_type_true in Ht, Htj. rewrite Ht.
  rewrite (concat_res_diverge _ _ j Hin); [done| |].
  - intros c Hc'. assert (exists nc, h_nodes h !! c = Some nc) as [nc Hnc].
    { eapply inv_child_alive; [done|]. exists (n_children n). split; [by apply child_nodes_some|done]. }
    rewrite (get_node_some _ _ _ Hnc). cbn [rbind]. destruct (is_type NElement nc); [by eapply HT|by right; eexists].
  - rewrite (get_node_some _ _ _ Hnj). cbn [rbind]. rewrite Htj. by apply IH.
Qed.
Print Assumptions C57_search_never_returns.
(** Neither Display nor the value of an attribute gives an error. *)
Definition errfree {A} (r : res A) : Prop := match r with Err _ => False | _ => True end.
Lemma errfree_bind {A B} (r : res A) (f : A -> res B) : errfree r -> (forall a, errfree (f a)) -> errfree (rbind r f).
Proof. destruct r; try done. intros _ H. apply H. Qed.
Lemma errfree_node h i : errfree (get_node h i).
Proof. unfold get_node. by destruct (h_nodes h !! i). Qed.
Lemma errfree_concat {A B} (f : A -> res (list B)) l : (forall x, errfree (f x)) -> errfree (concat_res f l).
Proof. intros H. induction l as [|x l IH]; [done|]. cbn. apply errfree_bind; [done|]. intros. by apply errfree_bind. Qed.
Lemma errfree_list {A} (f : A -> res str) l : (forall x, errfree (f x)) -> errfree (fmt_list f l).
Proof. intros H. apply errfree_bind; [|done]. apply errfree_concat. intros. by apply errfree_bind. Qed.
Lemma errfree_value E h a : errfree (attr_value E h a).
Proof.
  unfold attr_value. apply errfree_bind; [apply errfree_node|]. intros n. destruct (is_nil (n_children n)); [done|].
  apply errfree_bind.
  { induction (n_children n) as [|c l IH]; [done|]. cbn. apply errfree_bind; [apply errfree_node|]. intros. by apply errfree_bind. }
  intros raw. apply errfree_bind; [|done].
  assert (HR : forall m, errfree (resolve_entity h a m)).
  { intros m. unfold resolve_entity, doc_type, node_value, owner_document, unwrap_res. repeat first [done|apply errfree_node|apply errfree_bind; [|intros]|match goal with |- errfree (match ?x with _ => _ end) => destruct x end]. }
  assert (HCE : forall m, errfree (char_from_entity m)).
  { intros m. unfold char_from_entity. repeat first [done|apply errfree_bind; [|intros]|match goal with |- errfree (match ?x with _ => _ end) => destruct x end]. }
  assert (HSC : forall rp, (forall t, errfree (rp t)) -> forall s k, errfree (scan E rp s k)).
  { intros rp Hrp s. induction s as [|c s IH]; intros k; [done|]. cbn [scan]. destruct k; [|apply IH].
    destruct (find_token E (c :: s)) as [[tok m]|]; repeat (first [done|apply errfree_bind; [auto|intros]]). }
  generalize entity_fuel false raw. induction n0 as [|k IH]; intros cd s; [done|]. 
  #[local] Transparent normalize_attribute_value.
  cbn [normalize_attribute_value].
  repeat first [done|apply errfree_bind; [|intros]|apply HSC; intros tok; destruct tok|apply HCE|apply HR|apply IH|match goal with |- errfree (match ?x with _ => _ end) => destruct x end].
Qed.
Lemma errfree_fmt E h fuel i : errfree (fmt_node fuel E h i).
Proof.
  revert i. induction fuel as [|k IH]; intros i; [done|]. cbn [fmt_node]. apply errfree_bind; [apply errfree_node|]. intros n.
  destruct (n_type n); unfold fmt_attribute, fmt_text, fmt_cdata, fmt_comment, attributes, data, xml_declaration, doc_type;
    repeat first [done|apply IH|apply errfree_node|apply errfree_value|apply errfree_list; intros|apply errfree_bind; [|intros]|match goal with |- errfree (match ?x with _ => _ end) => destruct x end].
Qed.
(** Display: the only other outcome is a panic on the way. *)
Theorem C57_display_never_returns : forall E h i, reachable h -> meets_cycle (elem_child h) i -> forall fuel, ~ returns (fmt_node fuel E h i).
Proof.
  intros E h i Hr Hc fuel [[s Hs]|[e He]]; [|pose proof (errfree_fmt E h fuel i) as H; by rewrite He in H].
  revert i s Hc Hs. induction fuel as [|k IH]; intros i s Hc Hs; [done|].
  destruct (meets_step _ _ Hc) as (j & ((l & (n & Hn & <-)%child_nodes_ok & Hin) & (n' & Hn' & Ht)%node_type_ok & _) & Hcj). assert (n' = n) as -> by congruence.
  cbn [fmt_node] in Hs. rewrite (get_node_some _ _ _ Hn) in Hs. cbn [rbind] in Hs. rewrite Ht in Hs.
  destruct (attributes h i) as [at_| | |]; try done. cbn [rbind] in Hs. destruct (fmt_list _ (e_ord_attr E at_)); try done. cbn [rbind] in Hs.
  destruct (fmt_list (fmt_node k E h) (n_children n)) as [c| | |] eqn:Hl; try done. apply fmt_list_ok in Hl as (ps & Hps & _).
  assert (Hj : exists sj, fmt_node k E h j = Ok sj).
  { clear -Hps Hin. induction Hps as [|x p l ps Hx _ IHl]; [done|]. destruct Hin as [<-|Hin]; [by eexists|by apply IHl]. }
  destruct Hj as [sj Hsj]. by eapply IH.
Qed.
Print Assumptions C57_display_never_returns.
(** Cloning goes down every child link, of whatever kind. *)
Lemma clone_cycle h : keys_lt h -> (forall i n c, h_nodes h !! i = Some n -> In c (n_children n) -> exists nc, h_nodes h !! c = Some nc) ->
  forall fuel i n h0, h_nodes h !! i = Some n -> only_added h h0 -> keys_lt h0 ->
  exists h1, only_added h h1 /\ keys_lt h1 /\ (clone_rec fuel true i h0 = (h1, Diverge) \/ ~ meets_cycle (child h) i /\ exists j, clone_rec fuel true i h0 = (h1, Ok j)).
Proof.
  intros Hk Hal. induction fuel as [|k IH]; intros i n h0 Hn Ha Hk0; [exists h0; split_and!; [done|done|by left]|].
  cbn [clone_rec]. rewrite (bind_node _ n) by (by apply Ha).
  assert (HL : exists h1, only_added h h1 /\ keys_lt h1 /\ (mapM_ (clone_rec k true) (n_children n) h0 = (h1, Diverge) \/
    (forall c, In c (n_children n) -> ~ meets_cycle (child h) c) /\ exists js, mapM_ (clone_rec k true) (n_children n) h0 = (h1, Ok js))).
  { pose proof (fun c => Hal i n c Hn) as Hc. clear Hn. revert h0 Ha Hk0. induction (n_children n) as [|c l IHl]; intros h0 Ha Hk0.
    - exists h0. split_and!; [done|done|]. right. split; [done|]. by exists [].
    - destruct (Hc c ltac:(by left)) as [nc Hnc]. destruct (IH c nc h0 Hnc Ha Hk0) as (h1 & Ha1 & Hk1 & [Hd|[Hm [j Hj]]]).
      + exists h1. split_and!; [done|done|]. left. cbn [mapM_]. unfold bind. by rewrite Hd.
      + destruct (IHl (fun c' H => Hc c' (or_intror H)) h1 Ha1 Hk1) as (h2 & Ha2 & Hk2 & [Hd|[Hm2 [js Hjs]]]).
        * exists h2. split_and!; [done|done|]. left. cbn [mapM_]. rewrite (bind_ok _ _ _ _ _ Hj). unfold bind. by rewrite Hd.
        * exists h2. split_and!; [done|done|]. right. split; [intros c' [<-|Hc']; [done|by apply Hm2]|]. exists (j :: js). cbn [mapM_]. rewrite (bind_ok _ _ _ _ _ Hj), (bind_ok _ _ _ _ _ Hjs). done. }
  destruct HL as (h1 & Ha1 & Hk1 & [Hd|[Hm [js Hjs]]]).
  - exists h1. split_and!; [done|done|]. left. unfold bind. by rewrite Hd.
  - set (n' := mkNode (n_type n) (n_name n) (n_value n) None (n_owner n) js (n_ext n)). destruct (only_added_alloc h1 n' Hk1) as [Ha2 Hk2].
    exists (allocd n' h1). split_and!; [by eapply only_added_trans|done|]. right. split.
    + intros (j & (l & (n1 & Hn1 & <-)%child_nodes_ok & Hin) & Hmj)%meets_step. assert (n1 = n) as -> by congruence. by eapply Hm.
    + exists (h_next h1). rewrite (bind_ok _ _ _ _ _ Hjs). done.
Qed.
Theorem C57_clone_never_returns : forall h i, reachable h -> meets_cycle (child h) i -> forall fuel, exists h', clone_rec fuel true i h = (h', Diverge).
Proof.
  intros h i Hr Hm fuel. pose proof (reachable_inv h Hr) as HI. destruct (meets_step _ _ Hm) as (j & (l & (n & Hn & _)%child_nodes_ok & _) & _).
  destruct (clone_cycle h (inv_lt h HI)) with (fuel := fuel) (i := i) (n := n) (h0 := h) as (h1 & _ & _ & [Hd|[Hno _]]); [|done|apply only_added_refl|exact (inv_lt h HI)|by eexists|done].
  intros i' n' c Hn' Hin. eapply inv_child_alive; [done|]. exists (n_children n'). split; [by apply child_nodes_some|done].
Qed.
Print Assumptions C57_clone_never_returns.
(** The two lookups go up: with no answer on a way up that comes back to itself they never end. *)
Definition up (h : heap) (a b : id) : Prop := exists n, h_nodes h !! a = Some n /\ n_parent n = Some b /\ alive h b = true.
Theorem C57_lookups_never_return : forall E h i p u, reachable h -> meets_cycle (up h) i -> (forall j, rtc (up h) i j -> aware h j) ->
  ((forall j v, rtc (up h) i j -> ~ maps h j p v) -> forall fuel, resolve_namespace_rec fuel h i p = Diverge) /\
  ((forall j q, rtc (up h) i j -> ~ maps h j q u) -> wf_env E -> forall fuel, resolve_prefix_rec fuel E h i u = Diverge).
Proof.
  intros E h i p u Hr Hm Haw. split.
  - intros Hno fuel. revert i Hm Haw Hno. induction fuel as [|k IH]; intros i Hm Haw Hno; [done|].
    destruct (meets_step _ _ Hm) as (j & Hj & Hmj). pose proof (Haw i (rtc_refl _ _)) as Hai. destruct Hj as (n & Hn & Hp & Haj). cbn [resolve_namespace_rec]. rewrite (add_namespaces_true h i Hai). cbn [rbind negb].
    assert (Hi : get_namespace h i p = Ok None).
    { destruct (C45_own h i p Hr Hai) as (Ho & _). rewrite (get_namespace_own h i n p Hai Hn) in *. destruct (hm_get p (own_namespaces n)) as [v|]; [|done]. destruct (Hno i v (rtc_refl _ _)). by apply Ho. }
    rewrite Hi. cbn [rbind]. rewrite (get_node_some _ _ _ Hn). cbn [rbind]. rewrite Hp, Haj.
    assert (Hup : up h i j) by (exists n; done). apply IH; [done|intros x Hx; apply Haw|intros x v Hx; apply Hno]; by eapply rtc_l.
  - intros Hno HE fuel. revert i Hm Haw Hno. induction fuel as [|k IH]; intros i Hm Haw Hno; [done|].
    destruct (meets_step _ _ Hm) as (j & Hj & Hmj). pose proof (Haw i (rtc_refl _ _)) as Hai. destruct Hj as (n & Hn & Hp & Haj). cbn [resolve_prefix_rec]. rewrite (add_namespaces_true h i Hai). cbn [rbind negb].
    assert (Hi : get_prefix E h i u = Ok PfxNone).
    { unfold get_prefix. rewrite (add_namespaces_true h i Hai). cbn [rbind negb]. rewrite (get_node_some _ _ _ Hn). cbn [rbind].
      destruct (find_first _ _) as [[q v]|] eqn:Hf; [|done]. exfalso. apply find_first_in in Hf as [Hin Hv]. apply str_eqb_true in Hv. cbn in Hv. subst v.
      rewrite (In_perm _ _ _ (wf_ord_ns E HE _)) in Hin. apply (Hno i q (rtc_refl _ _)). unfold own_namespaces in Hin. destruct (is_type NElement n); [|by destruct (n_ext n)]. destruct (n_ext n) eqn:Hx; try done. exists n. eexists _, _. done. }
    rewrite Hi. cbn [rbind]. rewrite (get_node_some _ _ _ Hn). cbn [rbind]. rewrite Hp, Haj.
    assert (Hup : up h i j) by (exists n; done). apply IH; [done|intros x Hx; apply Haw|intros x v Hx; apply Hno]; by eapply rtc_l.
Qed.
Print Assumptions C57_lookups_never_return.
(** ** Examples *)
#[local] Ltac inl := clear; apply elem_of_list_In; cbn; tauto.
(** Without a cycle: the tree of C45 ends all walks and lookups. *)
Example C57_ends_example : no_cycle_below ex_ns 1 /\ get_elements_by_tag_name ex_ns 1 (lit "g") = Ok [3] /\ resolve_namespace ex_ns 3 (Some (lit "p")) = Ok None.
Proof. split; [|by vm_compute]. eapply (tree_no_cycle _ _ (Tr 1 [Tr 2 [Tr 3 []]])). repeat (first [constructor|eapply tree_intro; [by vm_compute|]]). Qed.
(** Nothing stops the root of that tree from being put below its grandchild. *)
Definition ex_loop_ops : list op := ex_ns_ops ++ [OAppendChild 3 1].
Definition ex_loop : heap := default empty_heap (run env0 ex_loop_ops empty_heap).
Example ex_loop_reachable : reachable ex_loop.
Proof. apply (run0_reachable ex_loop_ops). by vm_compute. Qed.
Lemma check_child h a b l : child_nodes h a = Ok l -> In b l -> child h a b.
Proof. intros. by exists l. Qed.
Example ex_loop_down : meets_cycle (elem_child ex_loop) 2.
Proof.
  assert (H : forall a b, (a, b) ∈ [(1, 2); (2, 3); (3, 1)]%nat -> elem_child ex_loop a b).
  { intros a b Hin. repeat (apply elem_of_cons in Hin as [[= -> ->]|Hin]; [split; [eapply check_child; [by vm_compute|by left]|by vm_compute]|]). by apply elem_of_nil in Hin. }
  exists 2%nat. split; [done|]. apply (tc_l _ _ 3%nat); [apply H; inl|]. apply (tc_l _ _ 1%nat); [apply H; inl|]. apply tc_once, H. inl.
Qed.
Example ex_loop_up : meets_cycle (up ex_loop) 2 /\ (forall j, rtc (up ex_loop) 2 j -> j ∈ [1; 2; 3]%nat).
Proof.
  assert (Hn : forall a, a ∈ [1; 2; 3]%nat -> exists n, h_nodes ex_loop !! a = Some n /\ (a = 1 /\ n_parent n = Some 3 \/ a = 2 /\ n_parent n = Some 1 \/ a = 3 /\ n_parent n = Some 2)%nat).
  { intros a Hin. repeat (apply elem_of_cons in Hin as [->|Hin]; [eexists; split; [by vm_compute|]; vm_compute; tauto|]). by apply elem_of_nil in Hin. }
  assert (H : forall a b, (a, b) ∈ [(1, 3); (2, 1); (3, 2)]%nat -> up ex_loop a b).
  { intros a b Hin. repeat (apply elem_of_cons in Hin as [[= -> ->]|Hin]; [eexists; split; [by vm_compute|split; by vm_compute]|]). by apply elem_of_nil in Hin. }
  split.
  - exists 2%nat. split; [done|]. apply (tc_l _ _ 1%nat); [apply H; inl|]. apply (tc_l _ _ 3%nat); [apply H; inl|]. apply tc_once, H. inl.
  - assert (G : forall a b, rtc (up ex_loop) a b -> a ∈ [1; 2; 3]%nat -> b ∈ [1; 2; 3]%nat); [|intros j Hj; eapply G; [exact Hj|inl]].
    intros a b Hab. induction Hab as [|a b c (n & Hna & Hp & _) _ IH]; [done|]. intros Ha. apply IH. destruct (Hn a Ha) as (n' & Hn' & Hc). assert (n' = n) as -> by congruence.
    destruct Hc as [[_ Hc]|[[_ Hc]|[_ Hc]]]; rewrite Hp in Hc; injection Hc as ->; inl.
Qed.
Lemma meets_mono (R S : id -> id -> Prop) i : (forall a b, R a b -> S a b) -> meets_cycle R i -> meets_cycle S i.
Proof.
  intros H (x & H1 & H2). exists x. split.
  - clear H2. induction H1; [done|]. eapply rtc_l; [by apply H|done].
  - clear H1. assert (G : forall a b, tc R a b -> tc S a b); [|by apply G]. clear H2. induction 1; [by apply tc_once, H|eapply tc_l; [by apply H|done]].
Qed.
Lemma ex_loop_maps j n a nss : j ∈ [1; 2; 3]%nat -> h_nodes ex_loop !! j = Some n -> n_ext n = XElement a nss ->
  (forall v, ~ In (Some (lit "p"), v) nss) /\ forall q, ~ In (q, lit "urn:none") nss.
Proof.
  intros Hj Hn Hx.
  repeat (apply elem_of_cons in Hj as [->|Hj]; [vm_compute in Hn; injection Hn as <-; vm_compute in Hx; injection Hx as <- <-; split; intros x Hq; vm_compute in Hq; repeat (destruct Hq as [Hq|Hq]; [congruence|]); done|]).
  clear Hn Hx. by apply elem_of_nil in Hj.
Qed.
Example C57_example : forall fuel,
  search_elements fuel ex_loop (fun _ => true) 2 = Diverge /\ ~ returns (fmt_node fuel env0 ex_loop 2) /\ (exists h', clone_rec fuel true 2 ex_loop = (h', Diverge)) /\
  resolve_namespace_rec fuel ex_loop 2 (Some (lit "p")) = Diverge /\ resolve_prefix_rec fuel env0 ex_loop 2 (lit "urn:none") = Diverge.
Proof.
  intros fuel. destruct ex_loop_up as [Hup Hin]. split; [|split; [|split]].
  - apply C57_search_never_returns; [exact ex_loop_reachable|exact ex_loop_down].
  - apply C57_display_never_returns; [exact ex_loop_reachable|exact ex_loop_down].
  - apply C57_clone_never_returns; [exact ex_loop_reachable|]. eapply meets_mono; [|exact ex_loop_down]. by intros a b (Hc & _).
  - assert (Haw : forall j, rtc (up ex_loop) 2 j -> aware ex_loop j).
    { intros j Hj. apply Hin in Hj. repeat (apply elem_of_cons in Hj as [->|Hj]; [eapply check_aware; by vm_compute|]). by apply elem_of_nil in Hj. }
    destruct (C57_lookups_never_return env0 ex_loop 2 (Some (lit "p")) (lit "urn:none") ex_loop_reachable Hup Haw) as [H1 H2]. split; [apply H1|apply H2; [|exact wf_env0]].
    + intros j v Hj (n & a & nss & Hn & Hx & Hq). destruct (ex_loop_maps j n a nss (Hin j Hj) Hn Hx) as [H _]. exact (H v Hq).
    + intros j q Hj (n & a & nss & Hn & Hx & Hq). destruct (ex_loop_maps j n a nss (Hin j Hj) Hn Hx) as [_ H]. exact (H q Hq).
Qed.
