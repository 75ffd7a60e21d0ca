(** * C45, C46, C47: namespaces *)
From Coq Require Import Lia.
From Verif Require Import SpecNs SpecWalk ProofText ProofName PropName ProofInv ProofSteps ProofOps ProofTree ProofElem ProofWalk PropElem.

(** ** Climbing *)
Section climb.
  Context (h : heap) (HI : Inv h) (P : id -> Prop) (HP : forall i, P i -> exists n, h_nodes h !! i = Some n).
  Inductive walks : nat -> id -> ending -> Prop :=
  | w_here i : P i -> walks 0 i (AtNode i)
  | w_top i n : ~ P i -> h_nodes h !! i = Some n -> n_parent n = None -> walks 0 i AtTop
  | w_gone i n q : ~ P i -> h_nodes h !! i = Some n -> n_parent n = Some q -> h_nodes h !! q = None -> walks 0 i AtGone
  | w_up k i n q nq e : ~ P i -> h_nodes h !! i = Some n -> n_type n <> NAttribute -> n_parent n = Some q -> h_nodes h !! q = Some nq ->
      walks k q e -> walks (S k) i e.
  Lemma climbs_walks i e : climbs h P i e -> exists k, walks k i e.
  Proof.
    induction 1 as [i H|i n H Hn Hp|i n q H Hn Hp Hq|i q e H Hq _ (k & IH)]; [eexists; by constructor|eexists; by econstructor|eexists; by econstructor|].
    apply parent_node_some in Hq as (n & nq & Hn & Ht & Hp & Hq). exists (S k). by econstructor.
  Qed.
  Lemma walks_climbs k i e : walks k i e -> climbs h P i e.
  Proof.
    induction 1 as [i H|i n H Hn Hp|i n q H Hn Hp Hq|k i n q nq e H Hn Ht Hp Hq _ IH]; [by constructor|by econstructor|by econstructor|].
    apply (cl_up h P i q); [done| |done]. apply parent_node_some. by exists n, nq.
  Qed.
  Lemma walks_fun k i e : walks k i e -> forall k' e', walks k' i e' -> k' = k /\ e' = e.
  Proof.
    induction 1 as [i H|i n H Hn Hp|i n q H Hn Hp Hq|k i n q nq e H Hn Ht Hp Hq _ IH]; intros k' e' Hw;
      inversion Hw as [i' H'|i' n' H' Hn' Hp'|i' n' q' H' Hn' Hp' Hq'|k1 i' n' q' nq' e1 H' Hn' Ht' Hp' Hq' Hw']; subst; try done; try congruence.
    assert (q' = q) as -> by congruence. destruct (IH _ _ Hw') as [-> ->]. done.
  Qed.
  Lemma walks_alive k i e : walks k i e -> exists n, h_nodes h !! i = Some n.
  Proof. destruct 1; eauto. Qed.
  Lemma walks_stack k i e : walks k i e -> forall l, List.NoDup l -> (forall x, In x l -> exists m, (k < m)%nat /\ walks m x e) -> (length l + k < h_next h)%nat.
  Proof.
    assert (Hlast : forall k i e l, walks k i e -> List.NoDup l -> (forall x, In x l -> exists m, (k < m)%nat /\ walks m x e) ->
      List.NoDup (i :: l) /\ (length l < h_next h)%nat).
    { intros k0 i0 e0 l Hw Hnd Hl. assert (Hni : ~ In i0 l).
      { intros (m & Hm & Hw')%Hl. destruct (walks_fun _ _ _ Hw _ _ Hw') as [-> _]. lia. }
      split; [by constructor|]. assert (Hb : (length (i0 :: l) <= h_next h)%nat).
      { apply nodup_below; [by constructor|]. intros x [<-|Hx].
        - destruct (walks_alive _ _ _ Hw) as [n Hn]. by eapply inv_lt.
        - destruct (Hl x Hx) as (m & _ & Hwx). destruct (walks_alive _ _ _ Hwx) as [n Hn]. by eapply inv_lt. }
      cbn in Hb. lia. }
    induction 1 as [i H|i n H Hn Hp|i n q H Hn Hp Hq|k i n q nq e H Hn Ht Hp Hq Hw IH]; intros l Hnd Hl.
    1-3: rewrite Nat.add_0_r; eapply Hlast; [|exact Hnd|exact Hl]; by econstructor.
    assert (Hwi : walks (S k) i e) by (by econstructor). destruct (Hlast (S k) i e l Hwi Hnd Hl) as [Hnd' _].
    assert (G : (length (i :: l) + k < h_next h)%nat); [|cbn in G; lia].
    apply IH; [done|]. intros x [<-|Hx]; [exists (S k); split; [lia|done]|]. destruct (Hl x Hx) as (m & Hm & Hwx). exists m. split; [lia|done].
  Qed.
  Lemma walks_bound k i e : walks k i e -> (k < h_next h)%nat.
  Proof. intros Hw. apply (walks_stack k i e Hw []); [constructor|done]. Qed.

  (** Without cycles every node climbs to an end. *)
  Lemma climbs_total : acyclic h -> (forall i, P i \/ ~ P i) -> forall i n, h_nodes h !! i = Some n -> exists e, climbs h P i e.
  Proof.
    intros Hac Hdec.
    assert (G : forall m l i n, h_nodes h !! i = Some n -> List.NoDup l -> (forall x, In x l -> (x < h_next h)%nat /\ tc (child h) i x) -> (h_next h <= length l + m)%nat ->
      exists e, climbs h P i e).
    { induction m as [|m IH]; intros l i n Hn Hnd Hl Hlen.
      - exfalso. assert (Hni : ~ In i l) by (intros [_ Hi]%Hl; by eapply Hac).
        assert (Hb : (length (i :: l) <= h_next h)%nat).
        { apply nodup_below; [by constructor|]. intros x [<-|Hx]; [by eapply inv_lt|by apply Hl]. }
        cbn in Hb. lia.
      - assert (Hni : ~ In i l) by (intros [_ Hi]%Hl; by eapply Hac).
        destruct (Hdec i) as [Hi|Hi]; [eexists; by constructor|].
        destruct (n_parent n) as [q|] eqn:Hp; [|eexists; by econstructor].
        destruct (h_nodes h !! q) as [nq|] eqn:Hq; [|eexists; by eapply cl_gone].
        assert (Hta : n_type n <> NAttribute). { intros Ht. rewrite (attr_no_parent h i n HI Hn Ht) in Hp. done. }
        assert (Hup : parent_node h i = Ok (Some q)) by (apply parent_node_some; by exists n, nq).
        assert (Hgo : (exists e, climbs h P q e) -> exists e, climbs h P i e).
        { intros (e & He). exists e. by eapply cl_up. }
        apply Hgo. destruct (decide (n_type nq = NAttribute)) as [Hqa|Hqa].
        { pose proof (attr_no_parent h q nq HI Hq Hqa) as Hqp. destruct (Hdec q); [eexists; by constructor|eexists; by econstructor]. }
        assert (Hch : child h q i).
        { exists (n_children nq). split; [by apply child_nodes_some|]. by eapply (inv_parent h HI). }
        apply (IH (i :: l) q nq); [done|by constructor| |cbn; lia].
        intros x [<-|Hx]; [split; [by eapply inv_lt|by constructor]|]. destruct (Hl x Hx) as [H1 H2]. split; [done|]. eapply tc_l; [exact Hch|exact H2]. }
    intros i n Hn. apply (G (h_next h) [] i n); [done|constructor|done|cbn; lia].
  Qed.
End climb.

(** ** Awareness *)
Lemma add_namespaces_true h i : aware h i -> add_namespaces h i = Ok true.
Proof.
  intros (n & d & nd & decl & dt & m & o & Hn & Ho & Hd & Hx & Hop). unfold add_namespaces, owner_document. rewrite (get_node_some _ _ _ Hn). cbn [rbind].
  assert (Hu : upgrade h (n_owner n) = Some d) by (apply upgrade_some; eauto). rewrite Hu. rewrite (get_node_some _ _ _ Hd). cbn [rbind]. by rewrite Hx, Hop.
Qed.
Lemma add_namespaces_false h i n : h_nodes h !! i = Some n -> ~ aware h i -> add_namespaces h i = Ok false.
Proof.
  intros Hn Ha. unfold add_namespaces, owner_document. rewrite (get_node_some _ _ _ Hn). cbn [rbind].
  destruct (upgrade h (n_owner n)) as [d|] eqn:Hu; [|done]. apply upgrade_some in Hu as (Ho & nd & Hd). rewrite (get_node_some _ _ _ Hd). cbn [rbind].
  destruct (n_ext nd) as [| |decl dt m o| | | |] eqn:Hx; try done. destruct (has_add_namespaces o) eqn:Hop; [|done]. exfalso. apply Ha. by exists n, d, nd, decl, dt, m, o.
Qed.
Lemma document_unaware h i n : Inv h -> h_nodes h !! i = Some n -> n_type n = NDocument -> ~ aware h i.
Proof.
  intros HI Hn Ht (n' & d & nd & decl & dt & m & o & Hn' & Ho & _). assert (n' = n) as -> by congruence.
  destruct (inv_node h HI i n Hn) as (_ & Hown & _). unfold owner_ok in Hown. rewrite Ht in Hown. congruence.
Qed.
Lemma aware_up h i n q nq : Inv h -> aware h i -> h_nodes h !! i = Some n -> n_parent n = Some q -> h_nodes h !! q = Some nq -> aware h q \/ n_type nq = NDocument.
Proof.
  intros HI (n' & d & nd & decl & dt & m & o & Hn' & Ho & Hd & Hx & Hop) Hn Hp Hq. assert (n' = n) as -> by congruence.
  destruct (inv_node h HI i n Hn) as (_ & _ & Hpar & _). destruct (Hpar q Hp) as (_ & _ & Hs). destruct (Hs (static nq)) as [[_ Hso] _]; [by apply info_some|].
  destruct (decide (n_type nq = NDocument)) as [Ht|Ht]; [by right|]. left. exists nq, d, nd, decl, dt, m, o. split_and!; try done. specialize (Hso Ht). cbn in Hso. congruence.
Qed.
Lemma own_maps h i n : Inv h -> h_nodes h !! i = Some n -> (forall p u, In (p, u) (own_namespaces n) <-> maps h i p u) /\ List.NoDup (map fst (own_namespaces n)).
Proof.
  intros HI Hn. destruct (inv_node h HI i n Hn) as (Hex & _). unfold own_namespaces. split.
  - intros p u. split.
    + intros H. destruct (is_type NElement n); [|done]. destruct (n_ext n) as [| | | |attrs nss| |] eqn:Hx; try done. by exists n, attrs, nss.
    + intros (n' & attrs & nss & Hn' & Hx & Hin). assert (n' = n) as -> by congruence. unfold ext_ok in Hex. rewrite Hx in Hex |- *.
      destruct Hex as [Ht _]. apply is_type_true in Ht. by rewrite Ht.
  - destruct (is_type NElement n); [|constructor]. unfold ext_ok in Hex. destruct (n_ext n); try constructor. apply Hex.
Qed.
Lemma hm_get_unique {K V} `{EqDecision K} (m : list (K * V)) k v : List.NoDup (map fst m) -> hm_get k m = Some v <-> In (k, v) m.
Proof.
  intros Hnd. split; [by apply hm_get_in|]. intros Hin. destruct (hm_get k m) as [v'|] eqn:Hg.
  - apply hm_get_in in Hg. f_equal. induction m as [|[k0 v0] m IH]; [done|]. inversion Hnd as [|x y Hx Hy]; subst.
    destruct Hin as [Hin|Hin], Hg as [Hg|Hg]; [congruence| | |by apply IH]; exfalso; apply Hx; apply in_map_iff.
    + injection Hin as -> ->. by exists (k, v').
    + injection Hg as -> ->. by exists (k, v).
  - exfalso. apply hm_get_none in Hg. apply Hg. apply in_map_iff. exists (k, v). done.
Qed.

(** ** C45 *)
(** The mapping of an element is a function. *)
Theorem C45_function : forall h e p u v, reachable h -> maps h e p u -> maps h e p v -> u = v.
Proof.
  intros h e p u v Hr Hu Hv. apply reachable_inv in Hr as HI. destruct Hu as (n & a & nss & Hn & Hx & Hin). destruct (own_maps h e n HI Hn) as [Hm Hnd].
  assert (Hu : maps h e p u) by (by exists n, a, nss). apply Hm in Hu. apply Hm in Hv.
  apply (hm_get_unique _ _ _ Hnd) in Hu. apply (hm_get_unique _ _ _ Hnd) in Hv. congruence.
Qed.
Print Assumptions C45_function.
Lemma get_namespace_own h i n p : aware h i -> h_nodes h !! i = Some n -> get_namespace h i p = Ok (hm_get p (own_namespaces n)).
Proof. intros Ha Hn. unfold get_namespace. rewrite (add_namespaces_true h i Ha). cbn [rbind negb]. by rewrite (get_node_some _ _ _ Hn). Qed.
Lemma aware_alive h i : aware h i -> exists n, h_nodes h !! i = Some n.
Proof. intros (n & d & nd & decl & dt & m & o & Hn & _). eauto. Qed.
(** [get_namespace] is the element's own mapping; [contains_mapping] says whether there is one. *)
Theorem C45_own : forall h i p, reachable h -> aware h i ->
  (forall u, get_namespace h i p = Ok (Some u) <-> maps h i p u) /\
  (get_namespace h i p = Ok None <-> forall u, ~ maps h i p u) /\
  exists b, contains_mapping h i p = Ok b /\ (b = true <-> exists u, maps h i p u).
Proof.
  intros h i p Hr Ha. apply reachable_inv in Hr as HI. destruct (aware_alive h i Ha) as (n & Hn). destruct (own_maps h i n HI Hn) as [Hm Hnd].
  rewrite (get_namespace_own h i n p Ha Hn). unfold contains_mapping. rewrite (add_namespaces_true h i Ha). cbn [rbind negb]. rewrite (get_node_some _ _ _ Hn). cbn [rbind].
  split; [|split].
  - intros u. rewrite <- Hm, <- (hm_get_unique _ _ _ Hnd). split; [by intros [=]|by intros ->].
  - split.
    + intros [= Hg] u Hu. apply Hm, (hm_get_unique _ _ _ Hnd) in Hu. congruence.
    + intros Hno. destruct (hm_get p (own_namespaces n)) as [u|] eqn:Hg; [|done]. exfalso. apply (Hno u), Hm, (hm_get_unique _ _ _ Hnd), Hg.
  - eexists. split; [done|]. destruct (hm_get p (own_namespaces n)) as [u|] eqn:Hg; split; try done.
    + intros _. exists u. by apply Hm, (hm_get_unique _ _ _ Hnd).
    + intros (u & Hu). apply Hm, (hm_get_unique _ _ _ Hnd) in Hu. congruence.
Qed.
Print Assumptions C45_own.
(** The answer of the nearest ancestor-or-self that has one; none at the top; a panic when the way up leads to
    a freed parent. *)
Theorem C45_resolve : forall h i p e, reachable h -> aware h i -> climbs h (fun j => exists u, maps h j p u) i e ->
  match e with
  | AtNode j => exists u, maps h j p u /\ resolve_namespace h i p = Ok (Some u)
  | AtTop => resolve_namespace h i p = Ok None
  | AtGone => resolve_namespace h i p = Panic PUnwrap
  end.
Proof.
  intros h i p e Hr Ha Hc. apply reachable_inv in Hr as HI. apply climbs_walks in Hc as (k & Hw).
  assert (Hb : (k < h_next h)%nat).
  { eapply walks_bound; [done| |done]. intros j (u & n & a & nss & Hn & _). eauto. }
  unfold resolve_namespace, walk_fuel. assert (Hf : (k < S (h_next h))%nat) by lia. revert Hf. generalize (S (h_next h)) as f. intros f. revert f.
  assert (Ha' : aware h i \/ exists n, h_nodes h !! i = Some n /\ n_type n = NDocument) by (by left). clear Ha Hb. revert Ha'.
  assert (Hdoc : forall j n, h_nodes h !! j = Some n -> n_type n = NDocument -> forall u, ~ maps h j p u).
  { intros j n Hn Ht u (n' & a & nss & Hn' & Hx & _). assert (n' = n) as -> by congruence. destruct (inv_node h HI j n Hn) as (Hex & _). unfold ext_ok in Hex. rewrite Hx in Hex. destruct Hex; congruence. }
  assert (Hrd : forall f j n, h_nodes h !! j = Some n -> n_type n = NDocument -> resolve_namespace_rec (S f) h j p = Ok None).
  { intros f j n Hn Ht. cbn [resolve_namespace_rec]. rewrite (add_namespaces_false h j n Hn) by (by eapply document_unaware). done. }
  assert (Hgn : forall j n, aware h j -> h_nodes h !! j = Some n -> (forall u, maps h j p u -> get_namespace h j p = Ok (Some u)) /\ (~ (exists u, maps h j p u) -> get_namespace h j p = Ok None)).
  { intros j n Hj Hn. rewrite (get_namespace_own h j n p Hj Hn). destruct (own_maps h j n HI Hn) as [Hm Hnd]. split.
    - intros u Hu. apply Hm, (hm_get_unique _ _ _ Hnd) in Hu. by rewrite Hu.
    - intros Hno. destruct (hm_get p (own_namespaces n)) as [u|] eqn:Hg; [|done]. exfalso. apply Hno. exists u. by apply Hm, (hm_get_unique _ _ _ Hnd). }
  induction Hw as [i Hi|i n Hi Hn Hp|i n q Hi Hn Hp Hq|k i n q nq e Hi Hn Ht Hp Hq Hw IH]; intros Ha f Hf; (destruct f as [|f]; [lia|]).
  - destruct Ha as [Ha|(n & Hn & Ht)]; [|destruct Hi as [u Hu]; by destruct (Hdoc i n Hn Ht u)]. destruct Hi as [u Hu].
    exists u. split; [done|]. cbn [resolve_namespace_rec]. rewrite (add_namespaces_true h i Ha). cbn [rbind negb].
    destruct (aware_alive h i Ha) as (n & Hn). rewrite (proj1 (Hgn i n Ha Hn) u Hu). done.
  - destruct Ha as [Ha|(n' & Hn' & Ht)]; [|by apply (Hrd f i n')]. cbn [resolve_namespace_rec]. rewrite (add_namespaces_true h i Ha). cbn [rbind negb].
    rewrite (proj2 (Hgn i n Ha Hn) Hi). cbn [rbind]. rewrite (get_node_some _ _ _ Hn). cbn [rbind]. by rewrite Hp.
  - destruct Ha as [Ha|(n' & Hn' & Ht)].
    + cbn [resolve_namespace_rec]. rewrite (add_namespaces_true h i Ha). cbn [rbind negb].
      rewrite (proj2 (Hgn i n Ha Hn) Hi). cbn [rbind]. rewrite (get_node_some _ _ _ Hn). cbn [rbind]. rewrite Hp. unfold alive. by rewrite Hq.
    + exfalso. assert (n' = n) as -> by congruence. destruct (inv_node h HI i n Hn) as (_ & _ & Hpar & _). destruct (Hpar q Hp) as (_ & Hcb & _). by rewrite Ht in Hcb.
  - destruct Ha as [Ha|(n' & Hn' & Ht')].
    + assert (Hstep : resolve_namespace_rec (S f) h i p = resolve_namespace_rec f h q p).
      { cbn [resolve_namespace_rec]. rewrite (add_namespaces_true h i Ha). cbn [rbind negb].
        rewrite (proj2 (Hgn i n Ha Hn) Hi). cbn [rbind]. rewrite (get_node_some _ _ _ Hn). cbn [rbind]. rewrite Hp. unfold alive. by rewrite Hq. }
      rewrite Hstep. apply IH; [|lia]. destruct (aware_up h i n q nq HI Ha Hn Hp Hq); [by left|right; by exists nq].
    + exfalso. assert (n' = n) as -> by congruence. destruct (inv_node h HI i n Hn) as (_ & _ & Hpar & _). destruct (Hpar q Hp) as (_ & Hcb & _). by rewrite Ht' in Hcb.
Qed.
Print Assumptions C45_resolve.
Lemma maps_dec h i p : (exists u, maps h i p u) \/ ~ exists u, maps h i p u.
Proof.
  destruct (h_nodes h !! i) as [n|] eqn:Hn; [|right; intros (u & n & a & nss & Hn' & _); congruence].
  destruct (n_ext n) as [| | | |attrs nss| |] eqn:Hx; try (right; intros (u & n' & a & nss' & Hn' & Hx' & _); congruence).
  destruct (hm_get p nss) as [u|] eqn:Hg.
  - left. exists u, n, attrs, nss. split; [done|]. split; [done|]. by apply hm_get_in.
  - right. intros (u & n' & a & nss' & Hn' & Hx' & Hin). assert (nss' = nss) as -> by congruence. apply hm_get_none in Hg. apply Hg. apply in_map_iff. by exists (p, u).
Qed.
(** In a state without cycles the way up ends. *)
Theorem C45_ends : forall h i p, reachable h -> acyclic h -> alive h i = true -> exists e, climbs h (fun j => exists u, maps h j p u) i e.
Proof.
  intros h i p Hr Hac (n & Hn)%alive_true. apply reachable_inv in Hr as HI. eapply climbs_total; [done|done|intros j; apply maps_dec|done].
Qed.
Print Assumptions C45_ends.
(** Without the option nothing is found. *)
Theorem C45_unaware : forall E h i p u, alive h i = true -> ~ aware h i ->
  resolve_namespace h i p = Ok None /\ get_namespace h i p = Ok None /\ contains_mapping h i p = Ok false /\
  get_prefix E h i u = Ok PfxNone /\ resolve_prefix E h i u = Ok PfxNone /\ contains_mapped_namespace E h i u = Ok false.
Proof.
  intros E h i p u (n & Hn)%alive_true Ha. pose proof (add_namespaces_false h i n Hn Ha) as Hf.
  unfold contains_mapped_namespace, resolve_namespace, resolve_prefix, walk_fuel, get_namespace, contains_mapping, get_prefix. cbn [resolve_namespace_rec resolve_prefix_rec].
  rewrite Hf. done.
Qed.
Print Assumptions C45_unaware.

(** ** C46 *)
Lemma find_first_in {A} (p : A -> bool) l x : find_first p l = Some x -> In x l /\ p x = true.
Proof. induction l as [|y l IH]; [done|]. cbn. destruct (p y) eqn:Hy; [intros [= ->]; by split; [left|]|]. intros H. destruct (IH H). split; [by right|done]. Qed.
Lemma find_first_out {A} (p : A -> bool) l : find_first p l = None -> forall x, In x l -> p x = false.
Proof. induction l as [|y l IH]; [done|]. cbn. destruct (p y) eqn:Hy; [done|]. intros H x [<-|Hx]; auto. Qed.
(** [r] is an answer of [i] for [u]: a prefix [i] maps to [u] if it maps any. *)
Definition prefix_of (h : heap) (i : id) (u : str) (r : ns_prefix) : Prop :=
  match r with
  | PfxSome p => maps h i (Some p) u
  | PfxDefault => maps h i None u
  | PfxNone => forall p, ~ maps h i p u
  end.
Lemma get_prefix_own E h i u : wf_env E -> Inv h -> aware h i -> exists r, get_prefix E h i u = Ok r /\ prefix_of h i u r.
Proof.
  intros HE HI Ha. destruct (aware_alive h i Ha) as (n & Hn). destruct (own_maps h i n HI Hn) as [Hm _].
  unfold get_prefix. rewrite (add_namespaces_true h i Ha). cbn [rbind negb]. rewrite (get_node_some _ _ _ Hn). cbn [rbind]. eexists. split; [done|].
  destruct (find_first _ _) as [[[k|] v]|] eqn:Hf.
  - apply find_first_in in Hf as [Hin Hv]. rewrite (In_perm _ _ _ (wf_ord_ns E HE (own_namespaces n))) in Hin. cbn in Hv. apply str_eqb_true in Hv. subst v. exact (proj1 (Hm _ _) Hin).
  - apply find_first_in in Hf as [Hin Hv]. rewrite (In_perm _ _ _ (wf_ord_ns E HE (own_namespaces n))) in Hin. cbn in Hv. apply str_eqb_true in Hv. subst v. exact (proj1 (Hm _ _) Hin).
  - intros p Hp. apply Hm in Hp. rewrite <- (In_perm _ _ _ (wf_ord_ns E HE (own_namespaces n))) in Hp. pose proof (find_first_out _ _ Hf _ Hp) as Hx. cbn in Hx.
    assert (str_eqb u u = true) by (by apply str_eqb_true). congruence.
Qed.
Theorem C46_get_prefix : forall E h i u, wf_env E -> reachable h -> aware h i -> exists r, get_prefix E h i u = Ok r /\ prefix_of h i u r /\
  contains_mapped_namespace E h i u = Ok (match r with PfxNone => false | _ => true end) /\
  (forall p, r = PfxSome p -> get_namespace h i (Some p) = Ok (Some u)) /\ (r = PfxDefault -> get_namespace h i None = Ok (Some u)).
Proof.
  intros E h i u HE Hr Ha. destruct (get_prefix_own E h i u HE (reachable_inv h Hr) Ha) as (r & H & Hp). exists r. split; [done|]. split; [done|].
  split; [unfold contains_mapped_namespace; by rewrite H|]. split.
  - intros p ->. by apply (C45_own h i (Some p) Hr Ha).
  - intros ->. by apply (C45_own h i None Hr Ha).
Qed.
Print Assumptions C46_get_prefix.
Theorem C46_resolve_prefix : forall E h i u e, wf_env E -> reachable h -> aware h i -> climbs h (fun j => exists p, maps h j p u) i e ->
  match e with
  | AtNode j => exists r, resolve_prefix E h i u = Ok r /\ prefix_of h j u r /\ r <> PfxNone
  | AtTop => resolve_prefix E h i u = Ok PfxNone
  | AtGone => resolve_prefix E h i u = Panic PUnwrap
  end.
Proof.
  intros E h i u e HE Hr Ha Hc. apply reachable_inv in Hr as HI. apply climbs_walks in Hc as (k & Hw).
  assert (Hb : (k < h_next h)%nat).
  { eapply walks_bound; [done| |done]. intros j (p & n & a & nss & Hn & _). eauto. }
  unfold resolve_prefix, walk_fuel. assert (Hf : (k < S (h_next h))%nat) by lia. revert Hf. generalize (S (h_next h)) as f. intros f. revert f.
  assert (Ha' : aware h i \/ exists n, h_nodes h !! i = Some n /\ n_type n = NDocument) by (by left). clear Ha Hb. revert Ha'.
  assert (Hdoc : forall j n, h_nodes h !! j = Some n -> n_type n = NDocument -> forall p, ~ maps h j p u).
  { intros j n Hn Ht p (n' & a & nss & Hn' & Hx & _). assert (n' = n) as -> by congruence. destruct (inv_node h HI j n Hn) as (Hex & _). unfold ext_ok in Hex. rewrite Hx in Hex. destruct Hex; congruence. }
  assert (Hrd : forall f j n, h_nodes h !! j = Some n -> n_type n = NDocument -> resolve_prefix_rec (S f) E h j u = Ok PfxNone).
  { intros f j n Hn Ht. cbn [resolve_prefix_rec]. rewrite (add_namespaces_false h j n Hn) by (by eapply document_unaware). done. }
  assert (Hgn : forall j, aware h j -> ~ (exists p, maps h j p u) -> get_prefix E h j u = Ok PfxNone).
  { intros j Hj Hno. destruct (get_prefix_own E h j u HE HI Hj) as ([| |p] & Hg & Hp); [done| |]; exfalso; eauto. }
  induction Hw as [i Hi|i n Hi Hn Hp|i n q Hi Hn Hp Hq|k i n q nq e Hi Hn Ht Hp Hq Hw IH]; intros Ha f Hf; (destruct f as [|f]; [lia|]).
  - destruct Hi as [p Hpu]. destruct Ha as [Ha|(n & Hn & Ht)]; [|by destruct (Hdoc i n Hn Ht p)].
    destruct (get_prefix_own E h i u HE HI Ha) as (r & Hg & Hpr). exists r. cbn [resolve_prefix_rec]. rewrite (add_namespaces_true h i Ha). cbn [rbind negb]. rewrite Hg. cbn [rbind].
    destruct r as [| |q]; [by destruct (Hpr p)|done|done].
  - destruct Ha as [Ha|(n' & Hn' & Ht)]; [|by apply (Hrd f i n')]. cbn [resolve_prefix_rec]. rewrite (add_namespaces_true h i Ha). cbn [rbind negb].
    rewrite (Hgn i Ha Hi). cbn [rbind]. rewrite (get_node_some _ _ _ Hn). cbn [rbind]. by rewrite Hp.
  - destruct Ha as [Ha|(n' & Hn' & Ht)].
    + cbn [resolve_prefix_rec]. rewrite (add_namespaces_true h i Ha). cbn [rbind negb].
      rewrite (Hgn i Ha Hi). cbn [rbind]. rewrite (get_node_some _ _ _ Hn). cbn [rbind]. rewrite Hp. unfold alive. by rewrite Hq.
    + exfalso. assert (n' = n) as -> by congruence. destruct (inv_node h HI i n Hn) as (_ & _ & Hpar & _). destruct (Hpar q Hp) as (_ & Hcb & _). by rewrite Ht in Hcb.
  - destruct Ha as [Ha|(n' & Hn' & Ht')].
    + assert (Hstep : resolve_prefix_rec (S f) E h i u = resolve_prefix_rec f E h q u).
      { cbn [resolve_prefix_rec]. rewrite (add_namespaces_true h i Ha). cbn [rbind negb].
        rewrite (Hgn i Ha Hi). cbn [rbind]. rewrite (get_node_some _ _ _ Hn). cbn [rbind]. rewrite Hp. unfold alive. by rewrite Hq. }
      rewrite Hstep. apply IH; [|lia]. destruct (aware_up h i n q nq HI Ha Hn Hp Hq); [by left|right; by exists nq].
    + exfalso. assert (n' = n) as -> by congruence. destruct (inv_node h HI i n Hn) as (_ & _ & Hpar & _). destruct (Hpar q Hp) as (_ & Hcb & _). by rewrite Ht' in Hcb.
Qed.
Print Assumptions C46_resolve_prefix.

(** ** C47 *)
(** [xmlns="..."] or [xmlns:p="..."], in the XMLNS namespace. *)
Definition declaration (n : Name) : Prop :=
  nm_ns n = Some (lit "http://www.w3.org/2000/xmlns/") /\
  (nm_prefix n = None /\ nm_local n = lit "xmlns" \/ nm_prefix n = Some (lit "xmlns")).
Lemma declaration_iff n : is_namespace_attribute n = true <-> declaration n.
Proof.
  unfold is_namespace_attribute, declaration, ostr_eqb. rewrite andb_true_iff, orb_true_iff, andb_true_iff, !bool_decide_eq_true, str_eqb_true. unfold XMLNS_NS_URI, XMLNS_NS_ATTRIBUTE. tauto.
Qed.
(** What storing an attribute does to the mappings of the element, and of every other one. *)
Theorem C47_recorded : forall E h h' e a r, reachable h -> set_attribute_node E e a h = (h', r) -> r = Ok a \/ r = Err Syntax ->
  exists nm, node_name h a = Ok nm /\
  (declaration nm -> aware h e -> exists v, attr_value E h a = Ok (Some v) /\
     forall q u, maps h' e q u <-> q = nm_prefix nm /\ u = v \/ q <> nm_prefix nm /\ maps h e q u) /\
  (~ (declaration nm /\ aware h e) -> forall q u, maps h' e q u <-> maps h e q u) /\
  forall j q u, j <> e -> maps h' j q u <-> maps h j q u.
Proof.
  intros E h h' e a r Hr H Hok. apply reachable_inv in Hr as HI.
  destruct (set_attribute_node_inv E h h' e a r HI H) as (ne & na & He & Ha & [(_ & -> & _)|[(_ & _ & _ & -> & _)|Hm]]); [by destruct Hok as [-> | ->]|by destruct Hok..|].
  destruct Hm as (Hte & Hta & Ho & attrs & nss & nss' & d & nd & Hx & Hod & Hd & Htd & Hmap & Hreg).
  assert (Hea : e <> a) by congruence. assert (Hde : d <> e) by congruence. assert (Hda : d <> a) by congruence.
  assert (Hh1 : forall j, j <> d -> h_nodes h' !! j = h_nodes (with_attr h e a ne na attrs nss') !! j).
  { intros j Hj. destruct Hreg; try done. by rewrite lookup_upd_ne by congruence. }
  assert (Hhd : h_nodes h' !! d = Some nd \/ exists decl dt m o, h_nodes h' !! d = Some (set_ext (XDocument decl dt m o) nd)).
  { destruct Hreg; [left|right|left]; try (unfold with_attr; by rewrite !lookup_upd_ne by congruence). rewrite lookup_upd. eauto. }
  assert (He' : h_nodes h' !! e = Some (set_ext (XElement (hm_insert (n_name na) a attrs) nss') ne)).
  { rewrite Hh1 by congruence. unfold with_attr. apply lookup_upd. }
  assert (Ha' : h_nodes h' !! a = Some (set_ext (XAttribute (Some e)) na)).
  { rewrite Hh1 by congruence. unfold with_attr. rewrite lookup_upd_ne by done. apply lookup_upd. }
  destruct (doc_ext h d nd HI Hd Htd) as (decl & dt & m & o & Hxd).
  assert (Hopt : aware h e <-> has_add_namespaces (opts_of nd) = true).
  { unfold opts_of. rewrite Hxd. split.
    - intros (n & d' & nd' & decl' & dt' & m' & o' & Hn & Hno & Hd' & Hxd' & Hop). assert (n = ne) as -> by congruence. assert (d' = d) as -> by congruence.
      assert (nd' = nd) as -> by congruence. rewrite Hxd in Hxd'. by injection Hxd' as <- <- <- <-.
    - intros Hop. by exists ne, d, nd, decl, dt, m, o. }
  assert (Hme : forall q u, maps h' e q u <-> In (q, u) nss').
  { intros q u. split.
    - intros (n & at' & ns' & Hn & Hxn & Hin). rewrite He' in Hn. injection Hn as <-. cbn in Hxn. by injection Hxn as _ <-.
    - intros Hin. eexists _, _, nss'. split; [exact He'|]. done. }
  assert (Hmo : forall q u, maps h e q u <-> In (q, u) nss).
  { intros q u. split.
    - intros (n & at' & ns' & Hn & Hxn & Hin). assert (n = ne) as -> by congruence. rewrite Hx in Hxn. by injection Hxn as _ <-.
    - intros Hin. by exists ne, attrs, nss. }
  exists (n_name na). split; [unfold node_name; by rewrite (get_node_some _ _ _ Ha)|].
  destruct (own_maps h e ne HI He) as [_ Hnd]. unfold own_namespaces in Hnd. apply is_type_true in Hte as Hte'. rewrite Hte', Hx in Hnd.
  split; [|split].
  - intros Hdec Haw. apply declaration_iff in Hdec. apply Hopt in Haw.
    destruct Hmap as [[Hf|Hf]|v _ _ Hv]; [congruence|congruence|]. exists v. split; [done|]. intros q u. rewrite Hme, Hmo. split.
    + intros Hin. destruct (decide (q = nm_prefix (n_name na))) as [->|Hq].
      * apply (hm_get_unique _ _ _ (hm_insert_nodup _ v _ Hnd)) in Hin. rewrite hm_get_insert in Hin. injection Hin as <-. by left.
      * right. split; [done|]. apply hm_insert_in in Hin as [[-> _]|Hin]; done.
    + intros [[-> ->]|[Hq Hin]]; apply (hm_get_unique _ _ _ (hm_insert_nodup _ v _ Hnd)); [apply hm_get_insert|].
      rewrite hm_get_insert_ne by done. by apply (hm_get_unique _ _ _ Hnd).
  - intros Hno q u. rewrite Hme, Hmo. destruct Hmap as [_|v Hdec Haw _]; [done|]. exfalso. apply Hno. split; [by apply declaration_iff|by apply Hopt].
  - intros j q u Hj. destruct (decide (j = d)) as [->|Hjd].
    + split; intros (n & at' & ns' & Hn & Hxn & _); exfalso; [|congruence].
      destruct Hhd as [Hhd|(decl' & dt' & m' & o' & Hhd)]; rewrite Hhd in Hn; injection Hn as <-; [congruence|done].
    + destruct (decide (j = a)) as [->|Hja].
      * split; intros (n & at' & ns' & Hn & Hxn & _); exfalso; [rewrite Ha' in Hn; by injection Hn as <-|].
        assert (n = na) as -> by congruence. destruct (attr_ext h a na HI Ha Hta) as (x & Hxa). congruence.
      * unfold maps. rewrite Hh1 by done. unfold with_attr. rewrite !lookup_upd_ne by congruence. done.
Qed.
Print Assumptions C47_recorded.
(** So the value of [xmlns:p] is never found under [p], whatever [p] is: in every reachable state the only
    prefixes an element maps are none and [xmlns] itself. *)
Theorem C47_only_two_prefixes : forall h e q u, reachable h -> maps h e q u -> q = None \/ q = Some (lit "xmlns").
Proof.
  intros h e q u Hr (n & attrs & nss & Hn & Hx & Hin). apply reachable_inv in Hr as HI. destruct (inv_node h HI e n Hn) as (Hex & _). unfold ext_ok in Hex. rewrite Hx in Hex.
  destruct Hex as (_ & _ & _ & _ & H). by apply (H q u).
Qed.
Print Assumptions C47_only_two_prefixes.
Theorem C47_prefix_never_resolves : forall h e p r, reachable h -> p <> lit "xmlns" -> resolve_namespace h e (Some p) = Ok r -> r = None.
Proof.
  intros h e p r Hr Hp. apply reachable_inv in Hr as HI. unfold resolve_namespace. generalize (walk_fuel h) as f. intros f. revert e.
  induction f as [|f IH]; intros e; [done|]. cbn [resolve_namespace_rec]. destruct (add_namespaces h e) as [b|x|x|]; try done. cbn [rbind]. destruct b; cbn [negb]; [|by intros [= <-]].
  destruct (get_namespace h e (Some p)) as [o|x|x|] eqn:Hg; try done. cbn [rbind]. destruct o as [u|].
  - exfalso. unfold get_namespace in Hg. destruct (add_namespaces h e) as [b|x|x|]; try done. cbn [rbind] in Hg. destruct b; cbn [negb] in Hg; [|done].
    unfold get_node in Hg. destruct (h_nodes h !! e) as [n|] eqn:Hn; [|done]. cbn [rbind] in Hg. injection Hg as Hg. apply hm_get_in in Hg.
    apply (own_maps h e n HI Hn) in Hg. apply (C47_only_two_prefixes h e _ _ Hr) in Hg as [Hg|Hg]; [done|]. congruence.
  - unfold get_node. destruct (h_nodes h !! e) as [n|]; [|done]. cbn [rbind]. destruct (n_parent n) as [q|]; [|by intros [= <-]]. destruct (alive h q); [|done]. apply IH.
Qed.
Print Assumptions C47_prefix_never_resolves.

(** ** Examples, and what fails *)
Definition xmlns_uri_lit : str := lit "http://www.w3.org/2000/xmlns/".
(** The root declares [xmlns="urn:d"] and [xmlns:a="urn:u"]; its child declares [xmlns:b="urn:v"]; its grandchild nothing. *)
Definition ex_ns_ops : list op :=
  [ OCreateDocument None (Some (lit "r")) None (set_add_namespaces options_new); OCreateElement 0 (lit "c"); OAppendChild 1 2; OCreateElement 0 (lit "g"); OAppendChild 2 3;
    OSetAttributeNs 1 xmlns_uri_lit (lit "xmlns") (lit "urn:d"); OSetAttributeNs 1 xmlns_uri_lit (lit "xmlns:a") (lit "urn:u");
    OSetAttributeNs 2 xmlns_uri_lit (lit "xmlns:b") (lit "urn:v") ].
Definition ex_ns : heap := default empty_heap (run env0 ex_ns_ops empty_heap).
Example ex_ns_reachable : reachable ex_ns.
Proof. apply (run0_reachable ex_ns_ops). by vm_compute. Qed.
Lemma check_aware h i n d nd decl dt m o : h_nodes h !! i = Some n -> n_owner n = Some d -> h_nodes h !! d = Some nd -> n_ext nd = XDocument decl dt m o ->
  has_add_namespaces o = true -> aware h i.
Proof. intros. by exists n, d, nd, decl, dt, m, o. Qed.
Example ex_ns_aware : aware ex_ns 3.
Proof. eapply check_aware; by vm_compute. Qed.
Lemma check_maps h i n a nss p u : h_nodes h !! i = Some n -> n_ext n = XElement a nss -> In (p, u) nss -> maps h i p u.
Proof. intros. by exists n, a, nss. Qed.
Lemma check_unmapped h i n a nss p : h_nodes h !! i = Some n -> n_ext n = XElement a nss -> hm_get p nss = None -> ~ exists u, maps h i p u.
Proof.
  intros Hn Hx Hg (u & n' & a' & nss' & Hn' & Hx' & Hin). assert (n' = n) as -> by congruence. assert (nss' = nss) as -> by congruence.
  apply hm_get_none in Hg. apply Hg, in_map_iff. by exists (p, u).
Qed.
Example C45_example : climbs ex_ns (fun j => exists u, maps ex_ns j None u) 3 (AtNode 1) /\ maps ex_ns 1 None (lit "urn:d") /\ resolve_namespace ex_ns 3 None = Ok (Some (lit "urn:d")).
Proof.
  assert (Hm : maps ex_ns 1 None (lit "urn:d")) by (eapply check_maps; [by vm_compute|by vm_compute|by left]).
  split; [|split; [exact Hm|by vm_compute]].
  eapply cl_up; [eapply check_unmapped; by vm_compute|by vm_compute|]. eapply cl_up; [eapply check_unmapped; by vm_compute|by vm_compute|]. constructor. eauto.
Qed.
Example C46_example : aware ex_ns 1 /\ get_prefix env0 ex_ns 1 (lit "urn:u") = Ok (PfxSome (lit "xmlns")) /\ get_prefix env0 ex_ns 1 (lit "urn:d") = Ok PfxDefault /\
  resolve_prefix env0 ex_ns 3 (lit "urn:d") = Ok PfxDefault /\ resolve_prefix env0 ex_ns 3 (lit "urn:none") = Ok PfxNone.
Proof. split; [eapply check_aware; by vm_compute|]. by vm_compute. Qed.
Example C47_example : exists h a h', reachable h /\ aware h 1 /\ declaration (mkName (Some xmlns_uri_lit) (Some (lit "xmlns")) (lit "a")) /\
  node_name h a = Ok (mkName (Some xmlns_uri_lit) (Some (lit "xmlns")) (lit "a")) /\ set_attribute_node env0 1 a h = (h', Ok a) /\
  get_namespace h' 1 (Some (lit "xmlns")) = Ok (Some (lit "urn:u")).
Proof.
  pose (ops := [OCreateDocument None (Some (lit "r")) None (set_add_namespaces options_new); OCreateAttributeNs 0 xmlns_uri_lit (lit "xmlns:a"); OAttrSetValue 2 (lit "urn:u")]).
  pose (h := default empty_heap (run env0 ops empty_heap)). exists h, 2, (set_attribute_node env0 1 2 h).1.
  split; [apply (run0_reachable ops); by vm_compute|]. split; [eapply check_aware; by vm_compute|]. split; [split; [done|by right]|]. by vm_compute.
Qed.
(** A declared prefix resolves to its namespace: false. *)
Theorem C47_declared_prefix_refuted : exists h e p u, reachable h /\ aware h e /\ get_attribute_ns env0 h e xmlns_uri_lit p = Ok (Some u) /\
  get_namespace h e (Some p) = Ok None /\ resolve_namespace h e (Some p) = Ok None.
Proof. exists ex_ns, 1, (lit "a"), (lit "urn:u"). split; [exact ex_ns_reachable|]. split; [eapply check_aware; by vm_compute|]. by vm_compute. Qed.
Print Assumptions C47_declared_prefix_refuted.
(** The prefix found for a namespace resolves to that namespace: false, it may be shadowed on the way up. *)
Theorem C46_resolves_back_refuted : exists h e p u v, reachable h /\ resolve_prefix env0 h e u = Ok (PfxSome p) /\ resolve_namespace h e (Some p) = Ok (Some v) /\ u <> v.
Proof. exists ex_ns, 2, (lit "xmlns"), (lit "urn:u"), (lit "urn:v"). split; [exact ex_ns_reachable|]. by vm_compute. Qed.
Print Assumptions C46_resolves_back_refuted.
(** With two prefixes for one namespace the answer depends on the hash order. *)
Definition ex_env_ns_rev : env := mkEnv (e_checked env0) (e_letter env0) (e_digit env0) (e_ord_attr env0) (fun l => reverse l).
Theorem C46_one_answer_refuted : exists h e u E, reachable h /\ wf_env E /\ get_prefix env0 h e u <> get_prefix E h e u.
Proof.
  pose (ops := [OCreateDocument None (Some (lit "r")) None (set_add_namespaces options_new); OSetAttributeNs 1 xmlns_uri_lit (lit "xmlns") (lit "urn:d"); OSetAttributeNs 1 xmlns_uri_lit (lit "xmlns:a") (lit "urn:d")]).
  exists (default empty_heap (run env0 ops empty_heap)), 1, (lit "urn:d"), ex_env_ns_rev. split; [apply (run0_reachable ops); by vm_compute|].
  split; [|by vm_compute]. destruct wf_env0. split; try done. intros l. cbn. apply reverse_Permutation.
Qed.
Print Assumptions C46_one_answer_refuted.
(** The lookup always returns: false.  The child of a freed element panics. *)
Theorem C45_returns_refuted : exists h e, reachable h /\ acyclic h /\ aware h e /\ climbs h (fun j => exists u, maps h j None u) e AtGone /\ resolve_namespace h e None = Panic PUnwrap.
Proof.
  pose (ops := [OCreateDocument None (Some (lit "r")) None (set_add_namespaces options_new); OCreateElement 0 (lit "p"); OCreateElement 0 (lit "c"); OAppendChild 2 3; ODrop [2]]).
  pose (h := default empty_heap (run env0 ops empty_heap)). exists h, 3.
  split; [apply (run0_reachable ops); by vm_compute|]. split.
  - assert (Hch : forall p c, child h p c -> p = 0 /\ c = 1).
    { intros p c (l & Hl & Hin). apply child_nodes_ok in Hl as (n & Hn & <-).
      assert (Hall : map_to_list (h_nodes h) = map_to_list (h_nodes h)) by done.
      destruct p as [|[|[|[|p]]]].
      - vm_compute in Hn. injection Hn as <-. cbn in Hin. destruct Hin as [<-|[]]. done.
      - vm_compute in Hn. injection Hn as <-. done.
      - vm_compute in Hn. done.
      - vm_compute in Hn. injection Hn as <-. done.
      - exfalso. assert (Hb : (S (S (S (S p))) < h_next h)%nat) by (eapply inv_lt; [apply reachable_inv, (run0_reachable ops); by vm_compute|exact Hn]). vm_compute in Hb. lia. }
    intros x Hx. assert (G : forall y z, tc (child h) y z -> y = 0 /\ z = 1).
    { induction 1 as [y z Hyz|y z w Hyz _ IH]; [by apply Hch|]. apply Hch in Hyz as [-> ->]. by destruct IH. }
    apply G in Hx as [-> Hx]. done.
  - split; [eapply check_aware; by vm_compute|]. split; [|by vm_compute].
    eapply (cl_gone _ _ _ _ 2); [eapply check_unmapped; by vm_compute|by vm_compute|by vm_compute|by vm_compute].
Qed.
Print Assumptions C45_returns_refuted.
