(** * C73: what reference counting frees, and what it leaks *)
From Coq Require Import Lia.
From Verif Require Import SpecMem ProofInv ProofSteps ProofOps ProofTree ProofWalk PropTree PropElem PropFactory.

Lemma owns_refs h i j : Inv h -> owns h i j <-> exists n, h_nodes h !! i = Some n /\ In j (strong_refs n).
Proof.
  intros HI. unfold owns, strong_refs. split.
  - intros [(n & Hn & Hj)%child_edge|[(l & k & (n & Hn & ->)%attributes_ok & Hj)|Hd]].
    + exists n. split; [done|]. apply in_app_iff. by left.
    + exists n. split; [done|]. apply in_app_iff. right. destruct (is_type NElement n); [|done]. destruct (n_ext n); try done. cbn. apply in_map_iff. by exists (k, j).
    + unfold doc_type in Hd. destruct (get_node h i) as [n| | |] eqn:Hn; try done. apply get_node_ok in Hn. cbn in Hd. exists n. split; [done|]. apply in_app_iff. right.
      destruct (n_ext n); try done. injection Hd as ->. by left.
  - intros (n & Hn & [Hj|Hj]%in_app_iff); [left; apply child_edge; eauto|right]. destruct (inv_node h HI i n Hn) as (Hx & _). unfold ext_ok in Hx.
    destruct (n_ext n) as [| |d dt m o|es ns a b c|attrs nss| |] eqn:He; cbn in Hj; try done.
    + destruct dt as [t|]; [|done]. destruct Hj as [->|[]]. right. unfold doc_type. rewrite (get_node_some _ _ _ Hn). cbn. by rewrite He.
    + by destruct Hx as (_ & -> & ->).
    + left. destruct Hx as [Ht _]. apply in_map_iff in Hj as ([k a] & <- & Hj). exists attrs, k. split; [by eapply attributes_el|done].
Qed.
Lemma owns_alive h i j : Inv h -> owns h i j -> alive h i = true /\ alive h j = true.
Proof.
  intros HI Ho. pose proof Ho as (n & Hn & _)%(owns_refs h i j HI). split; [apply alive_true; eauto|]. destruct (inv_node h HI i n Hn) as (Hx & _ & _ & [Hc _] & _). unfold ext_ok in Hx.
  assert (G : forall s, info h j = Some s -> alive h j = true) by (intros s (m & Hm & _)%info_inv; apply alive_true; eauto).
  destruct Ho as [(n' & Hn' & Hj)%child_edge|[(l & k & (n' & Hn' & ->)%attributes_ok & Hj)|Hd]].
  - assert (n' = n) as -> by congruence. destruct (Hc j Hj) as (_ & s & Hs & _). eauto.
  - assert (n' = n) as -> by congruence. destruct (is_type NElement n); [|done]. destruct (n_ext n); try done. destruct Hx as (_ & _ & Ha & _). destruct (Ha k j Hj) as (s & Hs & _). eauto.
  - unfold doc_type in Hd. rewrite (get_node_some _ _ _ Hn) in Hd. cbn in Hd. destruct (n_ext n); try done. injection Hd as ->. destruct Hx as (_ & Ha & _). destruct (Ha j eq_refl) as (s & Hs & _). eauto.
Qed.
(** Freeing a node is one of the steps of histories. *)
Theorem C73_history : forall H h h', reachable h -> frees H h h' -> exists i, step h (ODrop [i]) h' /\ reachable h'.
Proof.
  intros H h h' Hr (i & Hi & HH & Hno & ->). pose proof (reachable_inv h Hr) as HI. exists i.
  assert (S : step h (ODrop [i]) (without i h)).
  { split; [done|]. exists env0, (Ok None). split; [exact wf_env0|]. split; [|done]. cbn [exec]. unfold out, bind, drop_nodes. rewrite bool_decide_true; [done|].
    intros j n Hn. destruct (decide (j = i)) as [->|]; [left; by apply elem_of_list_singleton|right]. apply Forall_forall. intros r Hr' ->%elem_of_list_singleton.
    apply (Hno j). apply owns_refs; [done|]. exists n. split; [done|]. by apply elem_of_list_In. }
  split; [done|]. by eapply reach_step.
Qed.
Print Assumptions C73_history.
Lemma frees_rtc H h h' : reachable h -> rtc (frees H) h h' -> reachable h'.
Proof. intros Hr Hs. induction Hs as [|a b c Hab _ IH]; [done|]. apply IH. by destruct (C73_history H a b Hr Hab) as (_ & _ & ?). Qed.

Section free.
  Context (H : list id) (h : heap) (i : id) (HI : Inv h) (Hi : alive h i = true) (HH : ~ In i H) (Hno : forall j, ~ owns h j i).
  Lemma owns_without x y : Inv (without i h) -> owns (without i h) x y <-> owns h x y /\ x <> i.
  Proof.
    intros HI'. rewrite !owns_refs by done. unfold without. cbn [h_nodes]. split.
    - intros (n & [Hne Hn]%lookup_delete_Some & Hin). split; [eauto|congruence].
    - intros [(n & Hn & Hin) Hne]. exists n. split; [|done]. by apply lookup_delete_Some.
  Qed.
  Lemma rtc_without x y : Inv (without i h) -> x <> i -> rtc (owns h) x y <-> rtc (owns (without i h)) x y.
  Proof.
    intros HI' Hx. split.
    - intros Hs. revert Hx. induction Hs as [x|x z y Hxz _ IH]; intros Hx; [constructor|]. eapply rtc_l; [by apply owns_without|]. apply IH. intros ->. by eapply Hno.
    - apply rtc_sub. intros a b Hab. by apply owns_without in Hab as [Hab _].
  Qed.
  Lemma alive_without x : alive (without i h) x = true <-> alive h x = true /\ x <> i.
  Proof.
    rewrite !alive_true. unfold without. cbn. split.
    - intros (n & [Hne Hn]%lookup_delete_Some). split; [eauto|congruence].
    - intros [(n & Hn) Hne]. exists n. by apply lookup_delete_Some.
  Qed.
  Lemma in_use_without x : Inv (without i h) -> in_use H h x <-> in_use H (without i h) x.
  Proof.
    intros HI'. split; intros (r & Hr & Ha & Hp); exists r; (assert (r <> i) by congruence); (split; [done|]).
    - split; [by apply alive_without|by apply rtc_without].
    - apply alive_without in Ha as [Ha _]. split; [done|by apply rtc_without].
  Qed.
  Lemma leaked_without x : Inv (without i h) -> leaked h x <-> leaked (without i h) x.
  Proof.
    intros HI'.
    assert (G : forall c, tc (owns h) c c -> c <> i) by (intros c Hc ->; destruct (tc_last _ _ _ Hc) as (w & _ & Hw); by eapply Hno).
    split; intros (c & Hc & Hp).
    - pose proof (G c Hc) as Hne. exists c. split; [|by apply rtc_without]. destruct (tc_first _ _ _ Hc) as (z & Hz & Hzc). eapply tc_rtc_r; [apply tc_once; by apply owns_without|].
      apply rtc_without; try done. intros ->. by eapply Hno.
    - exists c. assert (Hc' : tc (owns h) c c) by (eapply tc_sub; [|done]; intros a b Hab; by apply owns_without in Hab as [Hab _]). split; [done|]. apply rtc_without; try done. by apply G.
  Qed.
  Lemma not_kept : ~ in_use H h i /\ ~ leaked h i.
  Proof.
    assert (G : forall x, rtc (owns h) x i -> x = i).
    { intros x Hs. apply rtc_inv_r in Hs as [->|(w & _ & Hw)]; [done|]. by apply Hno in Hw. }
    split.
    - intros (r & Hr & _ & ->%G). done.
    - intros (c & Hc & ->%G). destruct (tc_last _ _ _ Hc) as (w & _ & Hw). by eapply Hno.
  Qed.
End free.

(** Walking backwards from a node that is not in use ends in a cycle, if every node is held. *)
Lemma stuck_kept H h i : Inv h -> (forall h2, ~ frees H h h2) -> alive h i = true -> in_use H h i \/ leaked h i.
Proof.
  intros HI Hst Hi.
  assert (Hheld : forall x, alive h x = true -> In x H \/ exists j, owns h j x).
  { intros x Hx. destruct (in_dec Nat.eq_dec x H) as [|HxH]; [by left|right].
    destruct (decide (map_Forall (fun j n => x ∉ strong_refs n) (h_nodes h))) as [Hno|Hyes].
    - exfalso. apply (Hst (without x h)). exists x. split; [done|]. split; [done|]. split; [|done]. intros j (n & Hn & Hin)%(owns_refs h j x HI). apply (Hno j n Hn). by apply elem_of_list_In.
    - apply map_not_Forall in Hyes as (j & n & Hn & Hin); [|apply _]. exists j. apply owns_refs; [done|]. exists n. split; [done|]. apply elem_of_list_In. by destruct (decide (x ∈ strong_refs n)). }
  assert (G : forall k, (in_use H h i \/ leaked h i) \/ exists x l, length l = k /\ List.NoDup (x :: l) /\ alive h x = true /\ (forall y, In y (x :: l) -> alive h y = true /\ rtc (owns h) x y /\ rtc (owns h) y i)).
  { induction k as [|k [IH|(x & l & Hk & Hnd & Hx & Hall)]]; [right|by left|].
    - exists i, []. split; [done|]. split; [constructor; [by intros []|constructor]|]. split; [done|]. intros y [<-|[]]. split; [done|]. split; constructor.
    - destruct (Hheld x Hx) as [HxH|(j & Hj)].
      + left; left. exists x. split; [done|]. split; [done|]. apply (Hall x). by left.
      + destruct (in_dec Nat.eq_dec j (x :: l)) as [Hin|Hin].
        * left; right. destruct (Hall j Hin) as (_ & Hxj & Hji). exists j. split; [|done]. eapply tc_rtc_r; [by apply tc_once|done].
        * right. exists j, (x :: l). split; [cbn; lia|]. split; [by constructor|]. destruct (owns_alive h j x HI Hj) as [Hja _]. split; [done|].
          destruct (Hall x (or_introl eq_refl)) as (_ & _ & Hxi). intros y [<-|Hy].
          -- split; [done|]. split; [constructor|by eapply rtc_l].
          -- destruct (Hall y Hy) as (Ha & Hxy & Hyi). split; [done|]. split; [by eapply rtc_l|done]. }
  destruct (G (h_next h)) as [?|(x & l & Hk & Hnd & _ & Hall)]; [done|]. exfalso.
  pose proof (nodup_below (x :: l) (h_next h) Hnd) as Hb. cbn in Hb. assert (S (length l) <= h_next h)%nat; [|lia]. apply Hb.
  intros y Hy. destruct (Hall y Hy) as ((n & Hn)%alive_true & _). by eapply inv_lt.
Qed.
(** What is left: exactly what the program can still reach, and what hangs from a cycle.  All of it unchanged. *)
Theorem C73_exact : forall H h h', reachable h -> collected H h h' ->
  (forall i, alive h' i = true <-> alive h i = true /\ (in_use H h i \/ leaked h i)) /\
  (forall i, alive h' i = true -> h_nodes h' !! i = h_nodes h !! i) /\ h_next h' = h_next h.
Proof.
  intros H h h' Hr [Hs Hst]. induction Hs as [h|h h1 h' Hf Hs IH].
  - split; [|done]. intros i. split; [|by intros [? _]]. intros Hi. split; [done|]. by apply stuck_kept; [apply reachable_inv| |].
  - pose proof (reachable_inv h Hr) as HI. destruct (C73_history H h h1 Hr Hf) as (_ & _ & Hr1). pose proof (reachable_inv h1 Hr1) as HI1.
    destruct Hf as (x & Hx & HH & Hno & ->). destruct (IH Hr1 Hst) as (H1 & H2 & H3). split; [|split; [|done]].
    + intros i. rewrite H1. rewrite (alive_without h x i), <- (in_use_without H h x), <- (leaked_without h x) by done. split; [tauto|]. intros [Hi Hk]. split; [|done]. split; [done|].
      intros ->. destruct (not_kept H h x HH Hno) as [? ?]. tauto.
    + intros i Hi. rewrite (H2 i Hi). apply H1 in Hi as [Hi _]. apply (alive_without h x i) in Hi as [_ Hne]. unfold without. cbn. by rewrite lookup_delete_ne.
Qed.
Print Assumptions C73_exact.
(** It always ends, and always the same way. *)
Theorem C73_ends : forall H h, reachable h -> exists h', collected H h h'.
Proof.
  intros H h. remember (base.size (h_nodes h)) as k eqn:Hk. revert h Hk. induction k as [k IH] using lt_wf_ind. intros h -> Hr. pose proof (reachable_inv h Hr) as HI.
  destruct (decide (map_Forall (fun x (_ : node) => x ∈ H \/ ~ map_Forall (fun j n => x ∉ strong_refs n) (h_nodes h)) (h_nodes h))) as [Hall|Hex].
  - exists h. split; [constructor|]. intros h2 (x & (n & Hn)%alive_true & HH & Hno & _). destruct (Hall x n Hn) as [Hin%elem_of_list_In|Hno']; [done|]. apply Hno'.
    intros j m Hm Hin%elem_of_list_In. apply (Hno j). apply owns_refs; [done|]. eauto.
  - apply map_not_Forall in Hex as (x & n & Hn & Hx); [|apply _].
    assert (Hf : frees H h (without x h)).
    { exists x. split; [apply alive_true; eauto|]. split; [intros ?%elem_of_list_In; apply Hx; by left|]. split; [|done]. intros j (m & Hm & Hin)%(owns_refs h j x HI).
      apply Hx. right. intros Hall. apply (Hall j m Hm). by apply elem_of_list_In. }
    destruct (C73_history H h _ Hr Hf) as (_ & _ & Hr1). destruct (IH (base.size (h_nodes (without x h)))) with (h := without x h) as (h' & Hs & Hst); [|done|done|].
    + unfold without. cbn. rewrite map_size_delete, Hn. cbn. assert (base.size (h_nodes h) <> 0%nat); [|lia]. intros E%map_size_empty_inv. by rewrite E, lookup_empty in Hn.
    + exists h'. split; [by eapply rtc_l|done].
Qed.
Print Assumptions C73_ends.
Theorem C73_order : forall H h h1 h2, reachable h -> collected H h h1 -> collected H h h2 -> h1 = h2.
Proof.
  intros H h h1 h2 Hr H1 H2. destruct (C73_exact H h h1 Hr H1) as (A1 & B1 & N1), (C73_exact H h h2 Hr H2) as (A2 & B2 & N2).
  destruct h1 as [m1 k1], h2 as [m2 k2]. cbn in *. subst. f_equal. apply map_eq. intros i.
  destruct (m1 !! i) as [n1|] eqn:E1.
  - assert (Ha : alive (mkHeap m1 (h_next h)) i = true) by (apply alive_true; eauto). rewrite (B2 i), <- (B1 i), E1; [done|done|]. apply A2, A1, Ha.
  - destruct (m2 !! i) as [n2|] eqn:E2; [|done]. assert (Ha : alive (mkHeap m2 (h_next h)) i = true) by (apply alive_true; eauto). apply A2, A1, alive_true in Ha as [n Hn]. cbn in Hn. congruence.
Qed.
Print Assumptions C73_order.
(** What hangs from a cycle is never freed, not even when the program gives up every handle. *)
Theorem C73_leak_stays : forall h h' i, reachable h -> rtc (frees []) h h' -> alive h i = true -> leaked h i -> alive h' i = true /\ leaked h' i.
Proof.
  intros h h' i Hr Hs. induction Hs as [h|h h1 h' Hf Hs IH]; intros Hi Hk; [done|].
  pose proof (reachable_inv h Hr) as HI. destruct (C73_history [] h h1 Hr Hf) as (_ & _ & Hr1). destruct Hf as (x & Hx & HH & Hno & ->).
  apply IH; [done| |by apply (leaked_without h x HI Hno i (reachable_inv _ Hr1))]. apply alive_without. split; [done|]. intros ->. by destruct (not_kept [] h x HH Hno) as [_ ?].
Qed.
Print Assumptions C73_leak_stays.

(** ** Where nothing leaks *)
(** If no node is below itself and attributes contain text only, no node owns itself indirectly. *)
Definition plain_attributes (h : heap) : Prop := forall a c, node_type_of h a = Ok NAttribute -> child h a c -> node_type_of h c = Ok NText.
Theorem C73_no_cycle : forall h, reachable h -> acyclic h -> plain_attributes h -> forall i, ~ leaked h i.
Proof.
  intros h Hr Hac Hpl i (c & Hc & _). pose proof (reachable_inv h Hr) as HI.
  assert (Hdt : forall x y n, h_nodes h !! x = Some n -> doc_type h x = Ok (Some y) -> n_type n = NDocument /\ node_type_of h y = Ok NDocumentType).
  { intros x y n Hn Hd. unfold doc_type in Hd. rewrite (get_node_some _ _ _ Hn) in Hd. cbn in Hd. destruct (inv_node h HI x n Hn) as (Hx & _). unfold ext_ok in Hx. destruct (n_ext n); try done.
    injection Hd as ->. destruct Hx as [Hx [Ht _]]. split; [done|]. destruct (Ht y eq_refl) as (s & (m & Hm & <-)%info_inv & Hs). apply node_type_ok. by exists m. }
  assert (Hch : forall x y n, h_nodes h !! x = Some n -> In y (n_children n) -> exists m, h_nodes h !! y = Some m /\ is_child_allowed (n_type n) (n_type m) = true).
  { intros x y n Hn Hy. destruct (inv_node h HI x n Hn) as (_ & _ & _ & [Hch _] & _). destruct (Hch y Hy) as (_ & s & (m & Hm & <-)%info_inv & [Hl _]). by exists m. }
  assert (Hleaf : forall x y, node_type_of h x = Ok NText \/ node_type_of h x = Ok NDocumentType -> ~ owns h x y).
  { intros x y Hx Ho. assert (Hn : exists n, h_nodes h !! x = Some n /\ (n_type n = NText \/ n_type n = NDocumentType)).
    { destruct Hx as [(n & Hn & Ht)%node_type_ok|(n & Hn & Ht)%node_type_ok]; exists n; tauto. }
    destruct Hn as (n & Hn & Ht). destruct Ho as [(n' & Hn' & Hy)%child_edge|[(l & k & (n' & Hn' & ->)%attributes_ok & Hy)|Hd]].
    - assert (n' = n) as -> by congruence. destruct (Hch x y n Hn Hy) as (m & _ & Hl). destruct Ht as [Ht|Ht]; by rewrite Ht in Hl.
    - assert (n' = n) as -> by congruence. unfold is_type in Hy. destruct Ht as [Ht|Ht]; by rewrite Ht in Hy.
    - destruct (Hdt x y n Hn Hd) as [Hd' _]. rewrite Hd' in Ht. by destruct Ht. }
  assert (Hon : forall x, tc (owns h) x x -> node_type_of h x <> Ok NText /\ node_type_of h x <> Ok NDocumentType /\ node_type_of h x <> Ok NAttribute).
  { intros x Hx. destruct (tc_first _ _ _ Hx) as (y & Hy & Hyx). split; [intros Ht; by eapply Hleaf; [left|]|]. split; [intros Ht; by eapply Hleaf; [right|]|]. intros Ht.
    assert (Hty : node_type_of h y = Ok NText).
    { pose proof Ht as (n & Hn & Htn)%node_type_ok. destruct Hy as [Hy|[(l & k & (n' & Hn' & ->)%attributes_ok & Hy')|Hd]]; [by apply (Hpl x)| |].
      - assert (n' = n) as -> by congruence. unfold is_type in Hy'. by rewrite Htn in Hy'.
      - destruct (Hdt x y n Hn Hd) as [Hd' _]. congruence. }
    assert (Hyy : tc (owns h) y y) by (eapply tc_rtc_l; [done|by apply tc_once]). destruct (tc_first _ _ _ Hyy) as (z & Hz & _). by eapply Hleaf; [left|]. }
  assert (Hedge : forall x y, owns h x y -> tc (owns h) y y -> child h x y).
  { intros x y Ho Hy. destruct (Hon y Hy) as (_ & Hn2 & Hn3). destruct Ho as [Ho|[(l & k & Hl & Hin)|Hd]]; [done| |].
    - exfalso. apply Hn3. by destruct (C39_keyed_by_name h x l Hr Hl) as [_ Hk]; destruct (Hk k y Hin) as (? & ? & ?).
    - exfalso. apply Hn2. destruct (owns_alive h x y HI) as [(n & Hn)%alive_true _]; [by right; right|]. by destruct (Hdt x y n Hn Hd). }
  assert (G : forall u v, tc (owns h) u v -> rtc (owns h) v u -> tc (child h) u v).
  { intros u v Huv. induction Huv as [u v Ho|u w v Ho Hwv IH]; intros Hvu.
    - apply tc_once, Hedge; [done|]. eapply tc_rtc_l; [done|by apply tc_once].
    - eapply tc_l; [|apply IH; by eapply rtc_r]. apply Hedge; [done|]. eapply tc_rtc_r; [done|]. by eapply rtc_r. }
  apply (Hac c). by apply G, rtc_refl.
Qed.
Print Assumptions C73_no_cycle.
Theorem C73_all_freed : forall h, reachable h -> acyclic h -> plain_attributes h ->
  (forall H h' i, collected H h h' -> alive h' i = true <-> in_use H h i /\ alive h i = true) /\ (forall h' i, collected [] h h' -> alive h' i = false).
Proof.
  intros h Hr Hac Hpl. pose proof (C73_no_cycle h Hr Hac Hpl) as Hno. assert (G : forall H h' i, collected H h h' -> alive h' i = true <-> in_use H h i /\ alive h i = true).
  { intros H h' i Hc. destruct (C73_exact H h h' Hr Hc) as (He & _). rewrite He. specialize (Hno i). tauto. }
  split; [done|]. intros h' i Hc. destruct (alive h' i) eqn:Ha; [|done]. apply (G [] h' i Hc) in Ha as [(r & [] & _) _].
Qed.
Print Assumptions C73_all_freed.
(** A set closed under ownership contains all that its members hold. *)
Lemma owned_checked h (S : list id) : Inv h ->
  forallb (fun a => match h_nodes h !! a with Some n => forallb (fun b => bool_decide (b ∈ S)) (strong_refs n) | None => true end) S = true ->
  forall x y, x ∈ S -> rtc (owns h) x y -> y ∈ S.
Proof.
  intros HI HS x y Hx Hp. induction Hp as [x|x w y Ho _ IH]; [done|]. apply IH. apply (owns_refs h x w HI) in Ho as (n & Hn & Hin).
  rewrite forallb_forall in HS. apply elem_of_list_In in Hx. specialize (HS x Hx). rewrite Hn in HS. rewrite forallb_forall in HS. by apply HS, bool_decide_eq_true in Hin.
Qed.
Definition plainb (h : heap) : bool := bool_decide (map_Forall (fun _ n =>
  negb (is_type NAttribute n) || forallb (fun c => match h_nodes h !! c with Some m => is_type NText m | None => false end) (n_children n) = true) (h_nodes h)).
Lemma plain_checked h : plainb h = true -> plain_attributes h.
Proof.
  intros Hc%bool_decide_eq_true a c (n & Hn & Ht)%node_type_ok (n' & Hn' & Hin)%child_edge. assert (n' = n) as -> by congruence. specialize (Hc a n Hn). cbn in Hc.
  apply is_type_true in Ht. rewrite Ht in Hc. cbn in Hc. rewrite forallb_forall in Hc. specialize (Hc c Hin). apply node_type_ok. destruct (h_nodes h !! c) as [m|]; [|done]. apply is_type_true in Hc. eauto.
Qed.
Lemma owns_checked h i j : Inv h -> match h_nodes h !! i with Some n => bool_decide (j ∈ strong_refs n) | None => false end = true -> owns h i j.
Proof. intros HI H. apply owns_refs; [done|]. destruct (h_nodes h !! i) as [n|]; [|done]. exists n. split; [done|]. apply bool_decide_eq_true in H. by apply elem_of_list_In. Qed.

Example C73_example : reachable ex_tree /\ acyclic ex_tree /\ plain_attributes ex_tree /\ rtc (owns ex_tree) 0 6 /\ exists h', collected [5] ex_tree h' /\
  alive h' 7 = true /\ alive h' 0 = false /\ alive h' 4 = false.
Proof.
  pose proof (reachable_inv _ ex_tree_reachable) as HI.
  assert (Hpl : plain_attributes ex_tree) by (apply plain_checked; by vm_compute).
  assert (Hac : acyclic ex_tree) by (apply C28_acyclic, C28_example).
  assert (H57 : owns ex_tree 5 7) by (apply owns_checked; [done|by vm_compute]).
  assert (H06 : rtc (owns ex_tree) 0 6).
  { apply (rtc_l _ 0 1); [apply owns_checked; [done|by vm_compute]|]. apply (rtc_l _ 1 5); [apply owns_checked; [done|by vm_compute]|]. apply (rtc_l _ 5 7); [done|]. apply rtc_once, owns_checked; [done|by vm_compute]. }
  split; [exact ex_tree_reachable|]. split; [done|]. split; [done|]. split; [done|].
  destruct (C73_ends [5] ex_tree ex_tree_reachable) as (h' & Hh'). exists h'. split; [done|]. destruct (C73_all_freed ex_tree ex_tree_reachable Hac Hpl) as [G _]. specialize (G [5] h').
  assert (N : forall x, in_use [5] ex_tree x -> x ∈ [5; 7; 6; 3]).
  { intros x (r & [<-|[]] & _ & Hp). refine (owned_checked ex_tree [5; 7; 6; 3] HI _ 5 x _ Hp); [by vm_compute|]. by left. }
  split; [apply G; [done|]; split; [|by vm_compute]; exists 5; split; [by left|]; split; [by vm_compute|by apply rtc_once]|].
  split.
  - destruct (alive h' 0) eqn:Ha; [|done]. apply (G 0 Hh') in Ha as [Ha%N _]. apply (bool_decide_eq_true _) in Ha. by vm_compute in Ha.
  - destruct (alive h' 4) eqn:Ha; [|done]. apply (G 4 Hh') in Ha as [Ha%N _]. apply (bool_decide_eq_true _) in Ha. by vm_compute in Ha.
Qed.

(** Either hypothesis is needed: a node put under its own descendant, or an entity reference in an attribute that contains the
    attribute's element, is never freed. *)
Definition ex_cycle_ops : list op := ex_tree_ops ++ [OAppendChild 5 1].
Definition ex_cycle : heap := default empty_heap (run env0 ex_cycle_ops empty_heap).
Definition ex_knot_ops : list op :=
  [OCreateDocument None (Some (lit "r")) None options_new; OCreateElement 0 (lit "e"); OCreateAttribute 0 (lit "a"); OSetAttributeNode 2 3;
   OCreateEntityReference 0 (lit "q"); OAppendChild 3 4; OAppendChild 4 2].
Definition ex_knot : heap := default empty_heap (run env0 ex_knot_ops empty_heap).
Theorem C73_append_refuted : exists h i, reachable h /\ plain_attributes h /\ alive h i = true /\ leaked h i.
Proof.
  assert (Hr : reachable ex_cycle) by (apply (run0_reachable ex_cycle_ops); by vm_compute). pose proof (reachable_inv _ Hr) as HI.
  exists ex_cycle, 3. split; [done|]. split; [apply plain_checked; by vm_compute|]. split; [by vm_compute|]. exists 1.
  assert (H15 : owns ex_cycle 1 5) by (apply owns_checked; [done|by vm_compute]).
  split; [apply (tc_l _ 1 5); [done|]; apply tc_once, owns_checked; [done|by vm_compute]|]. apply (rtc_l _ 1 5); [done|]. apply rtc_once, owns_checked; [done|by vm_compute].
Qed.
Print Assumptions C73_append_refuted.
Lemma run_safe_reach ops h : run_safe ops empty_heap = true -> run env0 ops empty_heap = Some h -> guided no_ancestor_insert h.
Proof. apply run_guided_safe. constructor. Qed.
Theorem C73_attribute_refuted : exists h i, guided no_ancestor_insert h /\ acyclic h /\ alive h i = true /\ leaked h i.
Proof.
  assert (Hg : guided no_ancestor_insert ex_knot) by (apply (run_safe_reach ex_knot_ops); by vm_compute).
  pose proof (reachable_inv _ (guided_reachable _ _ Hg)) as HI. exists ex_knot, 2. split; [done|]. split; [by apply C28_acyclic|]. split; [by vm_compute|]. exists 2. split; [|constructor].
  apply (tc_l _ 2 3); [apply owns_checked; [done|by vm_compute]|]. apply (tc_l _ 3 4); [apply owns_checked; [done|by vm_compute]|]. apply tc_once, owns_checked; [done|by vm_compute].
Qed.
Print Assumptions C73_attribute_refuted.
