(** * C80: counted references *)
From Coq Require Import Lia.
From Verif Require Import SpecRc ProofInv ProofSteps ProofOps ProofTree PropTree PropMem.

#[local] Notation cnt := (count_occ Nat.eq_dec).
(** What is stored in all nodes. *)
Definition in_nodes (h : heap) : list id := concat (map (fun p : id * node => strong_refs p.2) (map_to_list (h_nodes h))).
Lemma stored_refs h i n : Inv h -> h_nodes h !! i = Some n -> stored h i = strong_refs n.
Proof.
  intros HI Hn. unfold stored, strong_refs, child_nodes, attributes, doc_type. rewrite (get_node_some _ _ _ Hn). cbn [rbind ok_list]. f_equal.
  destruct (inv_node h HI i n Hn) as (Hx & _). unfold ext_ok in Hx. destruct (n_ext n) as [|o|d dt m o|es ns a b c|attrs nss|a b c|a b] eqn:He; cbn [ext_refs].
  1,2,6,7: by destruct (is_type NElement n).
  - destruct Hx as [Ht _]. assert (is_type NElement n = false) as -> by (apply is_type_false; congruence). by destruct dt.
  - destruct Hx as (Ht & -> & ->). by destruct (is_type NElement n).
  - destruct Hx as [Ht _]. apply is_type_true in Ht. rewrite Ht. cbn. by rewrite app_nil_r.
Qed.
Lemma all_stored_eq h : Inv h -> all_stored h = in_nodes h.
Proof.
  intros HI. unfold all_stored, in_nodes, live. f_equal. rewrite map_map. apply map_ext_in. intros [i n] Hin. cbn. apply stored_refs; [done|]. by apply elem_of_map_to_list, elem_of_list_In.
Qed.
Lemma cnt_perm l l' i : Permutation l l' -> cnt l i = cnt l' i.
Proof. intros H. by apply Permutation_count_occ. Qed.
Lemma concat_perm {A} (l l' : list (list A)) : Permutation l l' -> Permutation (concat l) (concat l').
Proof. induction 1; cbn; [done|by apply Permutation_app_head|rewrite !app_assoc; by apply Permutation_app_tail, Permutation_app_comm|by etransitivity]. Qed.
Lemma in_nodes_without h i n j : h_nodes h !! i = Some n -> cnt (in_nodes h) j = (cnt (strong_refs n) j + cnt (in_nodes (without i h)) j)%nat.
Proof.
  intros Hn. rewrite <- count_occ_app. apply cnt_perm. unfold in_nodes, without. cbn [h_nodes].
  change (strong_refs n ++ concat (map (fun p : id * node => strong_refs p.2) (map_to_list (delete i (h_nodes h))))) with (concat (map (fun p : id * node => strong_refs p.2) ((i, n) :: map_to_list (delete i (h_nodes h))))).
  apply concat_perm, Permutation_map. symmetry. by apply map_to_list_delete.
Qed.
Lemma list_sum_perm l l' : Permutation l l' -> list_sum l = list_sum l'.
Proof. unfold list_sum. induction 1; cbn; lia. Qed.
Definition weight (h : heap) : nat := list_sum (map (fun p : id * node => S (length (strong_refs p.2))) (map_to_list (h_nodes h))).
Lemma weight_without h i n : h_nodes h !! i = Some n -> weight h = (S (length (strong_refs n)) + weight (without i h))%nat.
Proof.
  intros Hn. unfold weight, without. cbn [h_nodes].
  rewrite (list_sum_perm _ (map (fun p : id * node => S (length (strong_refs p.2))) ((i, n) :: map_to_list (delete i (h_nodes h))))); [done|].
  apply Permutation_map. symmetry. by apply map_to_list_delete.
Qed.
Lemma in_nodes_owns h i : Inv h -> (0 < cnt (in_nodes h) i)%nat <-> exists j, owns h j i.
Proof.
  intros HI. split.
  - intros Hc. assert (Hin : In i (in_nodes h)) by (by apply (count_occ_In Nat.eq_dec)). apply in_concat in Hin as (l & Hl & Hi). apply in_map_iff in Hl as ([j n] & <- & Hj).
    apply elem_of_list_In, elem_of_map_to_list in Hj. exists j. apply owns_refs; [done|]. eauto.
  - intros (j & (n & Hn & Hin)%(owns_refs h j i HI)). apply (count_occ_In Nat.eq_dec). apply in_concat. exists (strong_refs n). split; [|done]. apply in_map_iff. exists (j, n).
    split; [done|]. by apply elem_of_list_In, elem_of_map_to_list.
Qed.

(** While [Rc]s of the nodes in [T] are still to be dropped. *)
Definition pending (H T : list id) (s : rc) : Prop :=
  (forall i, rc_count s i = (cnt H i + cnt T i + cnt (in_nodes (rc_heap s)) i)%nat) /\ (forall i, alive (rc_heap s) i = true <-> (0 < rc_count s i)%nat).
Lemma set_count_eq i k c : set_count i k c i = k.
Proof. unfold set_count. by rewrite decide_True. Qed.
Lemma set_count_ne i k c j : j <> i -> set_count i k c j = c j.
Proof. intros H. unfold set_count. by rewrite decide_False. Qed.
Lemma cnt_cons_ne i t j : j <> i -> cnt (i :: t) j = cnt t j.
Proof. intros H. apply count_occ_cons_neq. congruence. Qed.
Lemma cnt_cons_eq i t : cnt (i :: t) i = S (cnt t i).
Proof. by apply count_occ_cons_eq. Qed.
Lemma release_ok H : forall fuel T s, reachable (rc_heap s) -> pending H T s -> (length T + weight (rc_heap s) < fuel)%nat ->
  exists s', release fuel T s = Some s' /\ pending H [] s' /\ rtc (frees H) (rc_heap s) (rc_heap s').
Proof.
  induction fuel as [|fuel IH]; intros T [h c] Hr [Hc Ha] Hfu; cbn [rc_heap rc_count] in *; [lia|]. destruct T as [|i t]; [exists (mkRc h c); split; [done|]; split; [by split|constructor]|].
  pose proof (reachable_inv h Hr) as HI. cbn [release rc_heap rc_count length] in *. pose proof (Hc i) as Hci. rewrite cnt_cons_eq in Hci.
  assert (Hi : alive h i = true) by (apply Ha; lia). pose proof Hi as (n & Hn)%alive_true. rewrite Hn. destruct (c i) as [|[|m]] eqn:Hk; [lia| |].
  - assert (Hf : frees H h (without i h)).
    { exists i. split; [done|]. split; [intros Hin%(count_occ_In Nat.eq_dec); lia|]. split; [|done]. intros j Hj. assert (0 < cnt (in_nodes h) i)%nat by (apply in_nodes_owns; [done|eauto]). lia. }
    destruct (C73_history H h _ Hr Hf) as (_ & _ & Hr1).
    destruct (IH (strong_refs n ++ t) (mkRc (without i h) (set_count i 0 c))) as (s' & He & Hp & Hs); cbn [rc_heap rc_count]; [done| | |].
    + split; intros j; cbn [rc_heap rc_count].
      * rewrite count_occ_app. destruct (decide (j = i)) as [->|Hj].
        -- rewrite set_count_eq. pose proof (in_nodes_without h i n i Hn). lia.
        -- rewrite set_count_ne by done. rewrite Hc, (in_nodes_without h i n j Hn), cnt_cons_ne by done. lia.
      * rewrite (alive_without h i j). destruct (decide (j = i)) as [->|Hj]; [rewrite set_count_eq; split; [tauto|lia]|]. rewrite set_count_ne by done. rewrite Ha. tauto.
    + rewrite app_length. pose proof (weight_without h i n Hn). lia.
    + exists s'. split; [exact He|]. split; [done|]. by eapply rtc_l.
  - destruct (IH t (mkRc h (set_count i (S m) c))) as (s' & He & Hp & Hs); cbn [rc_heap rc_count]; [done| |lia|].
    + split; intros j; cbn [rc_heap rc_count]; (destruct (decide (j = i)) as [->|Hj]; [rewrite set_count_eq|rewrite set_count_ne by done]).
      * lia.
      * rewrite Hc, cnt_cons_ne by done. lia.
      * split; [lia|done].
      * apply Ha.
    + exists s'. done.
Qed.
Lemma accurate_pending H s : Inv (rc_heap s) -> accurate H s <-> pending H [] s.
Proof. intros HI. unfold accurate, pending. rewrite all_stored_eq by done. split; intros [H1 H2]; (split; [|done]); intros i; rewrite H1; cbn; lia. Qed.
Lemma accurate_held H s i : reachable (rc_heap s) -> accurate H s -> (0 < rc_count s i)%nat <-> In i H \/ exists j, owns (rc_heap s) j i.
Proof.
  intros Hr HA. pose proof (reachable_inv _ Hr) as HI. apply accurate_pending in HA as [Hc _]; [|done]. rewrite <- in_nodes_owns by done. rewrite Hc, (count_occ_In Nat.eq_dec). cbn. lia.
Qed.
Lemma accurate_done H s h2 : reachable (rc_heap s) -> accurate H s -> ~ frees H (rc_heap s) h2.
Proof.
  intros Hr HA (i & Hi & HH & Hno & _). pose proof HA as [_ Ha]. apply Ha in Hi. apply (accurate_held H s i Hr HA) in Hi as [Hi|[j Hj]]; [done|by apply (Hno j)].
Qed.

Lemma drop_one s i n m : rc_count s i = S (S m) -> h_nodes (rc_heap s) !! i = Some n -> rc_drop i s = Some (mkRc (rc_heap s) (set_count i (S m) (rc_count s))).
Proof. intros Hk Hn. unfold rc_drop, release_fuel. cbn [release Nat.add]. by rewrite Hk, Hn. Qed.

(** ** Dropping *)
(** Dropping one of the program's [Rc]s ends; the counts stay right; and what is freed is exactly what reference counting as described by C73 frees:
    afterwards exactly those nodes exist that the program still reaches or that hang from a cycle. *)
Theorem C80_drop : forall s H1 i H2, reachable (rc_heap s) -> accurate (H1 ++ i :: H2) s -> exists s', rc_drop i s = Some s' /\
  accurate (H1 ++ H2) s' /\ reachable (rc_heap s') /\ collected (H1 ++ H2) (rc_heap s) (rc_heap s').
Proof.
  intros s H1 i H2 Hr HA. pose proof (reachable_inv _ Hr) as HI. apply accurate_pending in HA as [Hc Ha]; [|done].
  destruct (release_ok (H1 ++ H2) (release_fuel (rc_heap s)) [i] s Hr) as (s' & He & Hp & Hs).
  - split; [|done]. intros j. rewrite Hc, !count_occ_app. change (i :: H2) with ([i] ++ H2). rewrite count_occ_app. cbn [count_occ]. lia.
  - unfold release_fuel. fold (weight (rc_heap s)). cbn [length]. lia.
  - pose proof (frees_rtc _ _ _ Hr Hs) as Hr'. exists s'. split; [done|]. apply accurate_pending in Hp; [|by apply reachable_inv]. split; [done|]. split; [done|]. split; [done|]. intros h2. by apply accurate_done.
Qed.
Print Assumptions C80_drop.
Theorem C80_drop_exact : forall s s' H1 i H2, reachable (rc_heap s) -> accurate (H1 ++ i :: H2) s -> rc_drop i s = Some s' ->
  (forall j, alive (rc_heap s') j = true <-> alive (rc_heap s) j = true /\ (in_use (H1 ++ H2) (rc_heap s) j \/ leaked (rc_heap s) j)) /\
  (forall j, alive (rc_heap s') j = true -> h_nodes (rc_heap s') !! j = h_nodes (rc_heap s) !! j).
Proof.
  intros s s' H1 i H2 Hr HA He. destruct (C80_drop s H1 i H2 Hr HA) as (s2 & He2 & _ & _ & Hcol). assert (s2 = s') as -> by congruence.
  by destruct (C73_exact _ _ _ Hr Hcol) as (? & ? & _).
Qed.
Print Assumptions C80_drop_exact.
(** Of the last [Rc] of a node: then the node goes.  Of another one: then nothing goes. *)
Theorem C80_drop_frees : forall s s' H1 i H2, reachable (rc_heap s) -> accurate (H1 ++ i :: H2) s -> rc_drop i s = Some s' ->
  (alive (rc_heap s') i = false <-> ~ In i (H1 ++ H2) /\ forall j, ~ owns (rc_heap s) j i) /\
  (alive (rc_heap s') i = true -> rc_heap s' = rc_heap s).
Proof.
  intros s s' H1 i H2 Hr HA He. pose proof (reachable_inv _ Hr) as HI. destruct (C80_drop s H1 i H2 Hr HA) as (s2 & He2 & HA' & Hr' & Hcol). assert (s2 = s') as -> by congruence.
  pose proof HA as [Hc Ha]%accurate_pending; [|done]. destruct (C80_drop_exact s s' H1 i H2 Hr HA He) as [Hex _].
  assert (Hci : (rc_count s i = S (cnt (H1 ++ H2) i + cnt (in_nodes (rc_heap s)) i))%nat) by (rewrite Hc, !count_occ_app, cnt_cons_eq; cbn; lia).
  assert (Hi : alive (rc_heap s) i = true) by (apply Ha; lia). pose proof Hi as (n & Hn)%alive_true.
  assert (Hsame : (1 < rc_count s i)%nat -> rc_heap s' = rc_heap s).
  { intros Hgt. destruct (rc_count s i) as [|[|m]] eqn:Hk; [lia|lia|]. rewrite (drop_one s i n m Hk Hn) in He. by injection He as <-. }
  assert (Hgone : (forall j, ~ owns (rc_heap s) j i) -> ~ In i (H1 ++ H2) -> alive (rc_heap s') i = false).
  { intros Hno HH. destruct (alive (rc_heap s') i) eqn:Hal; [|done]. apply Hex in Hal as [_ Hk]. destruct (not_kept (H1 ++ H2) (rc_heap s) i HH Hno). tauto. }
  assert (Hcase : (forall j, ~ owns (rc_heap s) j i) /\ ~ In i (H1 ++ H2) \/ (1 < rc_count s i)%nat).
  { destruct (decide (1 < rc_count s i)%nat) as [|Hle]; [by right|left]. split; [intros j Hj|intros Hin].
    - assert (0 < cnt (in_nodes (rc_heap s)) i)%nat by (apply in_nodes_owns; [done|eauto]). lia.
    - apply (count_occ_In Nat.eq_dec) in Hin. lia. }
  split; [split|].
  - intros Hd. destruct Hcase as [[? ?]|Hgt]; [done|]. rewrite (Hsame Hgt) in Hd. congruence.
  - intros [? ?]. by apply Hgone.
  - intros Hal. destruct Hcase as [[Hno HH]|Hgt]; [|by apply Hsame]. by rewrite (Hgone Hno HH) in Hal.
Qed.
Print Assumptions C80_drop_frees.

(** ** Cloning, and looking a weak reference up *)
Theorem C80_clone : forall s H i, accurate H s -> alive (rc_heap s) i = true -> accurate (i :: H) (rc_clone i s) /\ rc_heap (rc_clone i s) = rc_heap s.
Proof.
  intros s H i [Hc Ha] Hi. split; [|done]. unfold rc_clone, accurate. cbn [rc_heap rc_count]. split; intros j; (destruct (decide (j = i)) as [->|Hj]; [rewrite set_count_eq|rewrite set_count_ne by done]).
  - rewrite cnt_cons_eq, Hc. lia.
  - rewrite cnt_cons_ne by done. apply Hc.
  - split; [lia|done].
  - apply Ha.
Qed.
Print Assumptions C80_clone.
Theorem C80_upgrade : forall s H i, accurate H s ->
  (alive (rc_heap s) i = false <-> rc_upgrade i s = None) /\ (forall s', rc_upgrade i s = Some s' -> accurate (i :: H) s' /\ rc_heap s' = rc_heap s).
Proof.
  intros s H i HA. pose proof HA as [_ Ha]. specialize (Ha i). unfold rc_upgrade. split.
  - destruct (alive (rc_heap s) i), (rc_count s i); try done; intuition (try lia; try done).
  - destruct (rc_count s i) eqn:Hk; [done|]. intros s' [= <-]. apply C80_clone; [done|]. apply Ha. lia.
Qed.
Print Assumptions C80_upgrade.

(** ** unwrap *)
(** [unwrap] hands the value out exactly if nothing else refers to the node; then what the node held belongs to the program, and the parents,
    owners and ids that lead to the node lead nowhere.  Otherwise it panics, and frees nothing. *)
Theorem C80_unwrap : forall s H1 i H2, reachable (rc_heap s) -> accurate (H1 ++ i :: H2) s ->
  (~ In i (H1 ++ H2) /\ (forall j, ~ owns (rc_heap s) j i) -> exists n s', rc_unwrap i s = Value n s' /\ h_nodes (rc_heap s) !! i = Some n /\
     rc_heap s' = without i (rc_heap s) /\ reachable (rc_heap s') /\ accurate (stored (rc_heap s) i ++ H1 ++ H2) s' /\
     forall c, parent_node (rc_heap s') c = Ok (Some i) -> False) /\
  (In i (H1 ++ H2) \/ (exists j, owns (rc_heap s) j i) -> exists s', rc_unwrap i s = UnwrapPanic (Some s') /\ accurate (H1 ++ H2) s' /\ rc_heap s' = rc_heap s).
Proof.
  intros s H1 i H2 Hr HA. pose proof (reachable_inv _ Hr) as HI. pose proof HA as [Hc Ha]%accurate_pending; [|done].
  assert (Hci : (rc_count s i = S (cnt (H1 ++ H2) i + cnt (in_nodes (rc_heap s)) i))%nat) by (rewrite Hc, !count_occ_app, cnt_cons_eq; cbn; lia).
  assert (Hi : alive (rc_heap s) i = true) by (apply Ha; lia). pose proof Hi as (n & Hn)%alive_true. split.
  - intros [HH Hno]. assert (Hk : rc_count s i = 1%nat).
    { rewrite Hci. assert (cnt (H1 ++ H2) i = 0%nat) as -> by (by apply count_occ_not_In). destruct (cnt (in_nodes (rc_heap s)) i) eqn:Hz; [done|].
      destruct (proj1 (in_nodes_owns (rc_heap s) i HI)) as (j & Hj); [lia|]. by apply Hno in Hj. }
    assert (Hf : frees (H1 ++ H2) (rc_heap s) (without i (rc_heap s))) by (by exists i). destruct (C73_history _ _ _ Hr Hf) as (_ & _ & Hr1). pose proof (reachable_inv _ Hr1) as HI1.
    exists n. eexists. unfold rc_unwrap. rewrite Hk, Hn. split; [reflexivity|]. cbn [rc_heap]. split; [done|]. split; [done|]. split; [done|]. split.
    + apply accurate_pending; [done|]. rewrite (stored_refs _ i n HI Hn). split; intros j; cbn [rc_heap rc_count].
      * rewrite count_occ_app. pose proof (in_nodes_without (rc_heap s) i n j Hn) as Hw. cbn [count_occ]. unfold without in Hw. destruct (decide (j = i)) as [->|Hj].
        -- rewrite set_count_eq. lia.
        -- rewrite set_count_ne by done. rewrite Hc, Hw, !count_occ_app, cnt_cons_ne by done. cbn. lia.
      * change (mkHeap (delete i (h_nodes (rc_heap s))) (h_next (rc_heap s))) with (without i (rc_heap s)). rewrite (alive_without (rc_heap s) i j).
        destruct (decide (j = i)) as [->|Hj]; [rewrite set_count_eq; split; [tauto|lia]|]. rewrite set_count_ne by done. rewrite Ha. tauto.
    + intros x Hx. unfold parent_node in Hx. destruct (get_node _ x) as [nx| | |]; try done. cbn [rbind] in Hx. destruct (is_type NAttribute nx); [done|]. injection Hx as Hx. unfold upgrade in Hx. destruct (n_parent nx) as [q|]; [|done].
      unfold alive in Hx. cbn [h_nodes] in Hx. destruct (delete i (h_nodes (rc_heap s)) !! q) as [?|] eqn:Hq; [|done]. injection Hx as ->. by rewrite lookup_delete in Hq.
  - intros Hheld. assert (Hk : exists m, rc_count s i = S (S m)).
    { assert (0 < cnt (H1 ++ H2) i + cnt (in_nodes (rc_heap s)) i)%nat.
      { destruct Hheld as [Hin|Hown]; [apply (count_occ_In Nat.eq_dec) in Hin; lia|]. apply in_nodes_owns in Hown; [lia|done]. }
      rewrite Hci. destruct (cnt (H1 ++ H2) i + cnt (in_nodes (rc_heap s)) i)%nat as [|m]; [lia|by exists m]. }
    destruct Hk as (m & Hk). destruct (C80_drop s H1 i H2 Hr HA) as (s' & He & HA' & _). exists s'. unfold rc_unwrap. rewrite Hk, He. split; [done|]. split; [done|].
    rewrite (drop_one s i n m Hk Hn) in He. by injection He as <-.
Qed.
Print Assumptions C80_unwrap.

(** ** Right counts exist *)
(** Whatever calls were made and whatever is held, after freeing what nothing holds there are right counts. *)
Theorem C80_counts : forall H h h', reachable h -> Forall (fun i => alive h i = true) H -> collected H h h' -> exists c, accurate H (mkRc h' c).
Proof.
  intros H h h' Hr HH Hcol. pose proof Hcol as [Hs Hst]. pose proof (frees_rtc _ _ _ Hr Hs) as Hr'. pose proof (reachable_inv _ Hr') as HI'.
  exists (fun i => (cnt H i + cnt (all_stored h') i)%nat). split; [done|]. cbn [rc_heap rc_count]. intros i. rewrite (all_stored_eq h' HI'). split.
  - intros Hi. destruct (in_dec Nat.eq_dec i H) as [Hin|Hno]; [apply (count_occ_In Nat.eq_dec) in Hin; lia|]. destruct (cnt (in_nodes h') i) as [|k] eqn:Hk; [exfalso|lia].
    apply (Hst (without i h')). exists i. split; [done|]. split; [done|]. split; [|done]. intros j Hj. assert (0 < cnt (in_nodes h') i)%nat by (apply in_nodes_owns; [done|eauto]). lia.
  - intros Hpos. destruct (in_dec Nat.eq_dec i H) as [Hin|Hno].
    + apply (C73_exact H h h' Hr Hcol). assert (Ha : alive h i = true) by (by apply (proj1 (List.Forall_forall _ H) HH)). split; [done|]. left. exists i. split; [done|]. split; [done|constructor].
    + assert (cnt H i = 0%nat) as Hz by (by apply count_occ_not_In). destruct (proj1 (in_nodes_owns h' i HI')) as (j & Hj); [lia|]. by apply (owns_alive h' j i HI') in Hj as [_ ?].
Qed.
Print Assumptions C80_counts.

(** *** Example *)
(** A document with its element and a text in it, and an element outside; the program has the document twice, and the other element once. *)
Definition count_of (H : list id) (h : heap) : rc := mkRc h (fun i => (cnt H i + cnt (in_nodes h) i)%nat).
Definition all_held (H : list id) (h : heap) : bool :=
  forallb (fun i => bool_decide (i ∈ H ++ in_nodes h)) (live h) && forallb (alive h) (H ++ in_nodes h).
Lemma held_accurate H h : reachable h -> all_held H h = true -> accurate H (count_of H h).
Proof.
  intros Hr [H1 H2]%andb_true_iff. rewrite forallb_forall in H1. rewrite forallb_forall in H2. apply accurate_pending; [by apply reachable_inv|]. split; intros i; cbn [rc_heap rc_count count_of].
  { cbn. lia. }
  rewrite <- count_occ_app. split.
  - intros (n & Hn)%alive_true. apply (count_occ_In Nat.eq_dec). apply elem_of_list_In. apply (bool_decide_eq_true (i ∈ H ++ in_nodes h)), H1. unfold live. apply in_map_iff. exists (i, n). split; [done|].
    by apply elem_of_list_In, elem_of_map_to_list.
  - intros Hp. apply H2. by apply (count_occ_In Nat.eq_dec).
Qed.
Definition ex_rc_ops : list op :=
  [OCreateDocument None (Some (lit "r")) None options_new; OCreateText 0 (lit "t"); OAppendChild 1 2; OCreateElement 0 (lit "e"); OCreateText 0 (lit "u"); OAppendChild 3 4].
Definition ex_rc_heap : heap := default empty_heap (run env0 ex_rc_ops empty_heap).
Definition ex_rc : rc := count_of [0; 3; 0] ex_rc_heap.
Example C80_example : reachable ex_rc_heap /\ accurate [0; 3; 0] ex_rc /\
  (* one of the two handles of the document: nothing goes; then the other: the document, its element and the text *)
  (exists s1 s2, rc_drop 0 ex_rc = Some s1 /\ rc_heap s1 = ex_rc_heap /\ rc_drop 0 s1 = Some s2 /\ map (alive (rc_heap s2)) [0; 1; 2; 3; 4] = [false; false; false; true; true]) /\
  (* the element outside can be taken out of its cell, the document element not *)
  (exists n s', rc_unwrap 3 ex_rc = Value n s' /\ n_children n = [4] /\ map (alive (rc_heap s')) [0; 1; 2; 3; 4] = [true; true; true; false; true] /\ parent_node (rc_heap s') 4 = Ok None) /\
  (exists s', rc_unwrap 1 (rc_clone 1 ex_rc) = UnwrapPanic (Some s') /\ alive (rc_heap s') 1 = true) /\
  rc_upgrade 5 ex_rc = None.
Proof.
  assert (Hr : reachable ex_rc_heap) by (apply (run0_reachable ex_rc_ops); by vm_compute).
  split; [done|]. split; [apply held_accurate; [done|by vm_compute]|]. split; [|split; [|split]].
  - do 2 eexists. split; [reflexivity|]. split; [reflexivity|]. split; [reflexivity|]. by vm_compute.
  - do 2 eexists. split; [reflexivity|]. split; [by vm_compute|]. split; by vm_compute.
  - eexists. split; [reflexivity|]. by vm_compute.
  - by vm_compute.
Qed.
