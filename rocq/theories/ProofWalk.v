(** * ProofWalk: walks over trees end, and find what is there *)
From Coq Require Import Lia.
From Verif Require Import SpecWalk ProofText ProofName PropName ProofInv ProofSteps ProofOps ProofTree ProofElem.

Lemma tree_rect' (P : tree -> Prop) : (forall i ts, Forall P ts -> P (Tr i ts)) -> forall t, P t.
Proof.
  intros H. fix IH 1. intros [i ts]. apply H. induction ts as [|t ts IHts]; constructor; [apply IH|apply IHts].
Qed.
Lemma tree_of_ind' (h : heap) (P : id -> tree -> Prop) :
  (forall i cs ts, child_nodes h i = Ok cs -> Forall2 (tree_of h) cs ts -> Forall2 P cs ts -> P i (Tr i ts)) -> forall i t, tree_of h i t -> P i t.
Proof.
  intros H. fix IH 3. intros i t Ht. destruct Ht as [i cs ts Hc Hf]. apply (H i cs ts Hc Hf). clear Hc.
  induction Hf as [|c t cs ts Hct Hf IHf]; constructor; [by apply IH|apply IHf].
Qed.
Fixpoint depth (t : tree) : nat := match t with Tr _ ts => S (fold_right Nat.max 0 (map depth ts)) end.
Lemma depth_child t ts i : In t ts -> (S (depth t) <= depth (Tr i ts))%nat.
Proof.
  intros H. cbn. apply le_n_S. induction ts as [|t' ts IH]; [done|]. cbn. destruct H as [->|H]; [lia|]. specialize (IH H). lia.
Qed.
Lemma depth_bound n i ts : (forall t, In t ts -> (depth t <= n)%nat) -> (depth (Tr i ts) <= S n)%nat.
Proof.
  intros H. cbn. apply le_n_S. induction ts as [|t ts IH]; cbn; [lia|]. apply Nat.max_lub; [apply H; by left|]. apply IH. intros t' Ht'. apply H. by right.
Qed.
Lemma tree_of_fun h i t : tree_of h i t -> forall t', tree_of h i t' -> t' = t.
Proof.
  revert i t. apply (tree_of_ind' h (fun i t => forall t', tree_of h i t' -> t' = t)). intros i cs ts Hc _ IH t' Ht'. inversion Ht' as [i' cs' ts' Hc' Hf']; subst.
  rewrite Hc in Hc'. injection Hc' as <-. f_equal. clear Hc Ht'. revert ts' Hf'. induction IH as [|c t cs ts Hct _ IH]; intros ts' Hf'; inversion Hf'; subst; [done|].
  f_equal; [by apply Hct|by apply IH].
Qed.
Lemma nodup_below l n : List.NoDup l -> (forall x, In x l -> (x < n)%nat) -> (length l <= n)%nat.
Proof.
  intros Hnd H. rewrite <- (seq_length n 0). apply NoDup_incl_length; [done|]. intros x Hx. apply in_seq. specialize (H x Hx). lia.
Qed.
Lemma child_nodes_some h i n : h_nodes h !! i = Some n -> child_nodes h i = Ok (n_children n).
Proof. intros H. apply child_nodes_ok. by exists n. Qed.
Lemma inv_child_alive h p c : Inv h -> child h p c -> exists n, h_nodes h !! c = Some n.
Proof.
  intros HI (l & Hl & Hin). apply child_nodes_ok in Hl as (np & Hp & <-). destruct (inv_node h HI p np Hp) as (_ & _ & _ & (Hc & _) & _).
  destruct (Hc c Hin) as (_ & s & Hs & _). apply info_inv in Hs as (n & Hn & _). eauto.
Qed.
(** The stack argument: the ancestors on the way are pairwise different. *)
Lemma tree_exists_stack h : Inv h -> forall m l i, no_cycle_below h i -> List.NoDup l -> (forall x, In x l -> (x < h_next h)%nat /\ tc (child h) x i) ->
  (exists n, h_nodes h !! i = Some n) -> (h_next h <= length l + m)%nat -> exists t, tree_of h i t /\ (depth t <= m)%nat.
Proof.
  intros HI m. induction m as [|m IH]; intros l i Hcy Hnd Hl (n & Hn) Hlen.
  - exfalso. assert (Hi : ~ In i l) by (intros Hi; eapply Hcy; [constructor|by apply (Hl i Hi)]).
    assert (H : (length (i :: l) <= h_next h)%nat).
    { apply nodup_below; [by constructor|]. intros x [<-|Hx]; [by eapply inv_lt|by apply Hl]. }
    cbn in H. lia.
  - assert (Hi : ~ In i l) by (intros Hi; eapply Hcy; [constructor|by apply (Hl i Hi)]).
    pose proof (child_nodes_some h i n Hn) as Hc.
    assert (Hall : forall c, In c (n_children n) -> exists t, tree_of h c t /\ (depth t <= m)%nat).
    { intros c Hin. assert (Hic : child h i c) by (by exists (n_children n)). apply (IH (i :: l)).
      - intros x Hx. apply Hcy. eapply rtc_l; [exact Hic|exact Hx].
      - by constructor.
      - intros x [<-|Hx]; [split; [by eapply inv_lt|by constructor]|]. destruct (Hl x Hx) as [H1 H2]. split; [done|]. eapply tc_r; [exact H2|exact Hic].
      - by eapply inv_child_alive.
      - cbn. lia. }
    assert (Hts : exists ts, Forall2 (tree_of h) (n_children n) ts /\ forall t, In t ts -> (depth t <= m)%nat).
    { clear Hc Hn. induction (n_children n) as [|c cs IHc]; [exists []; by split; [constructor|]|].
      destruct (Hall c) as (t & Ht & Hd); [by left|]. destruct IHc as (ts & Hf & Hds); [intros c' Hc'; apply Hall; by right|].
      exists (t :: ts). split; [by constructor|]. intros t' [<-|Ht']; auto. }
    destruct Hts as (ts & Hf & Hds). exists (Tr i ts). split; [by apply (tree_intro h i (n_children n))|]. by apply depth_bound.
Qed.
Lemma tree_exists h i : Inv h -> (exists n, h_nodes h !! i = Some n) -> no_cycle_below h i -> exists t, tree_of h i t /\ (depth t <= h_next h)%nat.
Proof. intros HI Hi Hcy. apply (tree_exists_stack h HI (h_next h) [] i); [done|constructor|done|done|cbn; lia]. Qed.

Lemma Forall2_in_l {A B} (R : A -> B -> Prop) l l' x : Forall2 R l l' -> In x l -> exists y, In y l' /\ R x y.
Proof.
  induction 1 as [|a b l l' Hab _ IH]; [done|]. intros [->|Hx]; [exists b; split; [by left|done]|]. destruct (IH Hx) as (y & Hy & HR). exists y. split; [by right|done].
Qed.
(** Conversely a node with a tree has no cycle below it. *)
Fixpoint size (t : tree) : nat := match t with Tr _ ts => S (fold_right plus 0 (map size ts)) end.
Lemma size_child t ts i : In t ts -> (size t < size (Tr i ts))%nat.
Proof. intros H. cbn. induction ts as [|t' ts IH]; [done|]. cbn. destruct H as [->|H]; [lia|]. specialize (IH H). lia. Qed.
Lemma tree_child h i t c : tree_of h i t -> child h i c -> exists tc', tree_of h c tc' /\ (size tc' < size t)%nat.
Proof.
  intros Ht (l & Hl & Hin). inversion Ht as [i' cs ts Hc Hf]; subst. rewrite Hc in Hl. injection Hl as <-.
  destruct (Forall2_in_l _ _ _ _ Hf Hin) as (t' & Ht' & HR). exists t'. split; [done|]. by apply size_child.
Qed.
Lemma tree_below h i t x : tree_of h i t -> tc (child h) i x -> exists tx, tree_of h x tx /\ (size tx < size t)%nat.
Proof.
  intros Ht H. revert t Ht. induction H as [i x H|i y x H _ IH]; intros t Ht; [by eapply tree_child|].
  destruct (tree_child h i t y Ht H) as (ty & Hy & Hs). destruct (IH ty Hy) as (tx & Hx & Hs2). exists tx. split; [done|]. lia.
Qed.
Lemma tree_no_cycle h i t : tree_of h i t -> no_cycle_below h i.
Proof.
  intros Ht x Hx Hcy.
  assert (Hxt : exists tx, tree_of h x tx).
  { apply rtc_tc in Hx as [<-|Hx]; [eauto|]. destruct (tree_below h i t x Ht Hx) as (tx & Htx & _). eauto. }
  destruct Hxt as (tx & Htx). destruct (tree_below h x tx x Htx Hcy) as (tx' & Htx' & Hs). rewrite (tree_of_fun h x tx Htx tx' Htx') in Hs. lia.
Qed.

(** ** Tag search *)
Lemma concat_res_ok {A B} (f : A -> res (list B)) l ls : Forall2 (fun x y => f x = Ok y) l ls -> concat_res f l = Ok (concat ls).
Proof. induction 1 as [|x y l ls Hx _ IH]; [done|]. cbn. rewrite Hx. cbn. rewrite IH. done. Qed.
Lemma concat_res_inv {A B} (f : A -> res (list B)) l r : concat_res f l = Ok r -> exists ls, Forall2 (fun x y => f x = Ok y) l ls /\ r = concat ls.
Proof.
  revert r. induction l as [|x l IH]; intros r H; cbn in H; [injection H as <-; exists []; by split|].
  destruct (f x) as [a| | |] eqn:Hx; try done. cbn in H. destruct (concat_res f l) as [b| | |] eqn:Hl; try done. injection H as <-.
  destruct (IH b eq_refl) as (ls & Hf & ->). exists (a :: ls). split; [by constructor|done].
Qed.
Lemma is_element_iff h i n : h_nodes h !! i = Some n -> is_element h i = is_type NElement n.
Proof. intros H. unfold is_element, node_type_of, get_node. rewrite H. cbn. destruct (n_type n) eqn:Ht; unfold is_type; by rewrite Ht. Qed.
Definition named (h : heap) (p : Name -> bool) (i : id) : bool := match h_nodes h !! i with Some n => p (n_name n) | None => false end.
Lemma filter_concat {A} (p : A -> bool) ls : List.filter p (concat ls) = concat (map (List.filter p) ls).
Proof. induction ls as [|l ls IH]; [done|]. cbn. by rewrite List.filter_app, IH. Qed.
Lemma search_tree h p i t : Inv h -> tree_of h i t -> forall fuel, (depth t <= fuel)%nat ->
  search_elements fuel h p i = Ok (List.filter (named h p) (in_order (is_element h) t)).
Proof.
  intros HI. revert i t. apply (tree_of_ind' h (fun i t => forall fuel, (depth t <= fuel)%nat ->
    search_elements fuel h p i = Ok (List.filter (named h p) (in_order (is_element h) t)))).
  intros i cs ts Hc Hf IH fuel Hd. destruct fuel as [|k]; [cbn in Hd; lia|]. apply child_nodes_ok in Hc as (n & Hn & Hcs).
  cbn [search_elements in_order]. rewrite (get_node_some _ _ _ Hn). cbn [rbind]. rewrite (is_element_iff h i n Hn).
  destruct (is_type NElement n); [|done].
  rewrite Hcs. rewrite (concat_res_ok _ cs (map (List.filter (named h p)) (map (in_order (is_element h)) ts))).
  - cbn [rbind List.filter]. rewrite <- filter_concat. assert (named h p i = p (n_name n)) as -> by (unfold named; by rewrite Hn). by destruct (p (n_name n)).
  - assert (Hdt : forall t, In t ts -> (depth t <= k)%nat) by (intros t Ht; pose proof (depth_child t ts i Ht); lia).
    assert (Hal : forall c, In c cs -> exists n, h_nodes h !! c = Some n).
    { intros c Hin. eapply inv_child_alive; [done|]. exists cs. split; [|done]. rewrite <- Hcs. by apply child_nodes_some. }
    clear Hd Hn Hcs n. induction IH as [|c t cs ts Hct _ IH]; constructor.
    + destruct (Hal c) as (nc & Hnc); [by left|]. rewrite (get_node_some _ _ _ Hnc). cbn [rbind].
      destruct (is_type NElement nc) eqn:Hty; [apply Hct; apply Hdt; by left|].
      inversion Hf as [|c' t' cs' ts' Htc Hf']; subst. inversion Htc; subst. cbn. by rewrite (is_element_iff h c nc Hnc), Hty.
    + apply IH; [by inversion Hf|intros t' Ht'; apply Hdt; by right|intros c' Hc'; apply Hal; by right].
Qed.
Lemma keeps_filter {A} (P : A -> Prop) (p : A -> bool) l : (forall x, In x l -> p x = true <-> P x) -> keeps P l (List.filter p l).
Proof.
  induction l as [|x l IH]; intros H; [constructor|]. cbn. assert (H0 := H x (or_introl eq_refl)).
  assert (HI : keeps P l (List.filter p l)) by (apply IH; intros y Hy; apply H; by right).
  destruct (p x); [constructor; [by apply H0|done]|constructor; [|done]]. intros HP. by apply H0 in HP.
Qed.
(** The nodes found are elements. *)
Lemma in_order_all p t x : In x (in_order p t) -> p x = true.
Proof.
  revert t. apply (tree_rect' (fun t => In x (in_order p t) -> p x = true)). intros i ts IH. cbn. destruct (p i) eqn:Hp; [|done].
  intros [->|H]; [done|]. induction IH as [|t ts Ht _ IH]; [done|]. cbn in H. apply in_app_iff in H as [H|H]; auto.
Qed.
Lemma parsed_not_star k : parsed_name k -> name_to_string k <> star /\ nm_local k <> star.
Proof.
  intros [s Hs].
  assert (G : forall x, good_part x -> x <> star).
  { intros x (c & t & -> & Hc & _) [= -> ->]. unfold name_start_char, rng in Hc. lia. }
  assert (Hp : name_to_string k = s) by (pose proof (C09_print_parse _ _ Hs) as H; by destruct k).
  apply C08_accepts in Hs as [(Ho & Hg & He)|(p & l & (-> & _) & Hgp & Hgl & He)]; injection He as _ He.
  - split; [|rewrite He]; [rewrite Hp|]; by apply G.
  - split; [|rewrite He; by apply G]. rewrite Hp. destruct p; [by destruct Hgp as (? & ? & ? & _)|]. by intros [= _ ?%app_eq_nil]; destruct_and!.
Qed.
Lemma element_name h i : Inv h -> is_element h i = true -> exists n, h_nodes h !! i = Some n /\ n_type n = NElement /\ parsed_name (n_name n).
Proof.
  intros HI H. unfold is_element, node_type_of, get_node in H. destruct (h_nodes h !! i) as [n|] eqn:Hn; [|done]. cbn in H.
  exists n. split; [done|]. destruct (n_type n) eqn:Ht; try done. split; [done|].
  destruct (inv_node h HI i n Hn) as (_ & _ & _ & _ & Hnm). unfold name_ok in Hnm. by rewrite Ht in Hnm.
Qed.
