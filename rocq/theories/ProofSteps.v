(** * ProofSteps: what each call does to the heap, as primitive steps *)
From Coq Require Import Lia.
From Verif Require Import History SpecName ProofText ProofName ProofInv.

Definition returned {A} (r : res A) : Prop := match r with Ok _ | Err _ => True | _ => False end.

(** ** Inverting computations *)
Lemma bind_inv {A B} (m : M A) (k : A -> M B) h h' r : bind m k h = (h', r) -> returned r ->
  (exists h1 a, m h = (h1, Ok a) /\ k a h1 = (h', r)) \/ (exists e, m h = (h', Err e) /\ r = Err e).
Proof.
  unfold bind. destruct (m h) as [h1 [a|e|p|]] eqn:E; intros H Hr.
  - left. eauto.
  - right. exists e. by injection H as <- <-.
  - injection H as <- <-. done.
  - injection H as <- <-. done.
Qed.
Lemma getM_eq i h : getM i h = (h, get_node h i). Proof. done. Qed.
Lemma get_node_some h i n : h_nodes h !! i = Some n -> get_node h i = Ok n.
Proof. unfold get_node. by intros ->. Qed.
Lemma get_node_ok h i n : get_node h i = Ok n -> h_nodes h !! i = Some n.
Proof. unfold get_node. destruct (h_nodes h !! i); by intros [= ->]. Qed.
Lemma bind_getM {B} i (k : node -> M B) h h' r : bind (getM i) k h = (h', r) -> returned r ->
  exists n, h_nodes h !! i = Some n /\ k n h = (h', r).
Proof.
  unfold bind, getM, lift, get_node. destruct (h_nodes h !! i) as [n|]; intros H Hr; [eauto|].
  injection H as <- <-. done.
Qed.
Lemma bind_lift {A B} (f : heap -> res A) (k : A -> M B) h h' r : bind (lift f) k h = (h', r) -> returned r ->
  (exists a, f h = Ok a /\ k a h = (h', r)) \/ (exists e, f h = Err e /\ h' = h /\ r = Err e).
Proof.
  unfold bind, lift. destruct (f h) as [a|e|p|]; intros H Hr.
  - left. eauto.
  - right. exists e. by injection H as <- <-.
  - injection H as <- <-. done.
  - injection H as <- <-. done.
Qed.
Lemma bind_ret {A B} (a : A) (k : A -> M B) h : bind (ret a) k h = k a h. Proof. done. Qed.
Lemma bind_fail {A B} e (k : A -> M B) h : bind (fail e) k h = (h, Err e). Proof. done. Qed.
Lemma bind_panic {A B} p (k : A -> M B) h : bind (panic_ p) k h = (h, Panic p). Proof. done. Qed.
Lemma modifyM_eq i f n h : h_nodes h !! i = Some n -> modifyM i f h = (upd i (f n) h, Ok tt).
Proof. unfold modifyM. by intros ->. Qed.
Lemma bind_modifyM {B} i f n (k : unit -> M B) h : h_nodes h !! i = Some n ->
  bind (modifyM i f) k h = k tt (upd i (f n) h).
Proof. intros H. unfold bind. by rewrite (modifyM_eq _ _ _ _ H). Qed.
Lemma allocM_eq n h : allocM n h = (allocd n h, Ok (h_next h)). Proof. done. Qed.
Lemma bind_allocM {B} n (k : id -> M B) h : bind (allocM n) k h = k (h_next h) (allocd n h). Proof. done. Qed.
Lemma bind_assoc {A B C} (m : M A) (k : A -> M B) (g : B -> M C) h :
  bind (bind m k) g h = bind m (fun a => bind (k a) g) h.
Proof. unfold bind. by destruct (m h) as [h1 [a|e|p|]]. Qed.
Lemma lookup_upd i n h : h_nodes (upd i n h) !! i = Some n.
Proof. unfold upd. cbn. by rewrite lookup_insert. Qed.
Lemma lookup_upd_ne i j n h : i <> j -> h_nodes (upd i n h) !! j = h_nodes h !! j.
Proof. intros H. unfold upd. cbn. by rewrite lookup_insert_ne. Qed.
Lemma upd_upd i n m h : upd i n (upd i m h) = upd i n h.
Proof. unfold upd. cbn. by rewrite insert_insert. Qed.
Lemma upd_comm i j n m h : i <> j -> upd i n (upd j m h) = upd j m (upd i n h).
Proof. intros H. unfold upd. cbn. by rewrite insert_commute. Qed.
Lemma upd_id i n h : h_nodes h !! i = Some n -> upd i n h = h.
Proof. intros H. unfold upd. rewrite insert_id by done. by destruct h. Qed.
Lemma alive_true h i : alive h i = true <-> exists n, h_nodes h !! i = Some n.
Proof. unfold alive. destruct (h_nodes h !! i) as [n|]; split; try done; [eauto|]. by intros [? ?]. Qed.
Lemma upgrade_some h w i : upgrade h w = Some i <-> w = Some i /\ exists n, h_nodes h !! i = Some n.
Proof.
  unfold upgrade. destruct w as [j|]; [|split; [done|by intros [? _]]].
  destruct (alive h j) eqn:E.
  - apply alive_true in E as [n Hn]. split; [intros [= ->]; eauto|]. by intros [-> _].
  - split; [done|]. intros [[= ->] H]. apply alive_true in H. congruence.
Qed.
Lemma upgrade_none h w : upgrade h w = None <-> w = None \/ exists i, w = Some i /\ h_nodes h !! i = None.
Proof.
  unfold upgrade. destruct w as [j|]; [|split; auto]. unfold alive. destruct (h_nodes h !! j) eqn:E.
  - split; [done|]. intros [?|(i & [= ->] & H)]; congruence.
  - split; [|done]. intros _. right. eauto.
Qed.
Lemma is_type_true t n : is_type t n = true <-> n_type n = t.
Proof. unfold is_type, type_eqb. by rewrite bool_decide_eq_true. Qed.
Lemma is_type_false t n : is_type t n = false <-> n_type n <> t.
Proof. unfold is_type, type_eqb. by rewrite bool_decide_eq_false. Qed.
Lemma set_owner_same o q n : n_owner n = o -> set_owner o (set_parent q n) = set_parent q n.
Proof. intros <-. by destruct n. Qed.

(** ** Sequences of steps *)
Definition isteps (L : lab -> Prop) : heap -> heap -> Prop := rtc (fun h h' => exists l, L l /\ prim l h h').
Lemma isteps_inv L h h' : isteps L h h' -> Inv h -> Inv h'.
Proof. intros H. induction H as [|h1 h2 h3 (l & _ & Hp) _ IH]; [done|]. intros HI. apply IH. by eapply prim_inv. Qed.
Lemma isteps_weaken (L L' : lab -> Prop) h h' : (forall l, L l -> L' l) -> isteps L h h' -> isteps L' h h'.
Proof. intros HL. apply rtc_subrel. intros x y (l & Hl & Hp). eauto. Qed.
Lemma isteps_one (L : lab -> Prop) l h h' : L l -> prim l h h' -> isteps L h h'.
Proof. intros HL Hp. apply rtc_once. eauto. Qed.
Lemma isteps_nil L h : isteps L h h. Proof. apply rtc_refl. Qed.
Lemma isteps_app L h h1 h2 : isteps L h h1 -> isteps L h1 h2 -> isteps L h h2.
Proof. apply rtc_transitive. Qed.

(** ** Owner documents *)
Lemma allowed_can_be_child tp tc : is_child_allowed tp tc = true -> can_be_child tc = true.
Proof. by destruct tp, tc. Qed.
Lemma owner_some h i n : Inv h -> h_nodes h !! i = Some n -> n_type n <> NDocument -> n_type n <> NDocumentType ->
  exists d, n_owner n = Some d /\ (d < h_next h)%nat /\
    forall nd, h_nodes h !! d = Some nd -> n_type nd = NDocument.
Proof.
  intros HI Hn H1 H2. destruct (inv_node h HI i n Hn) as (_ & Ho & _).
  assert (G : exists d, n_owner n = Some d /\ (d < h_next h)%nat /\ forall s, info h d = Some s -> s_type s = NDocument).
  { unfold owner_ok in Ho. by destruct (n_type n). }
  destruct G as (d & Hd & Hlt & Hs). exists d. split; [done|]. split; [done|]. intros nd Hnd.
  by apply (Hs (static nd)), info_some.
Qed.
Lemma csd_ok h p c np nc : Inv h -> h_nodes h !! p = Some np -> h_nodes h !! c = Some nc ->
  n_type nc <> NDocument -> n_type nc <> NDocumentType ->
  check_same_document h p c = Ok tt ->
  (n_type np = NDocument -> n_owner nc = Some p) /\ (n_type np <> NDocument -> n_owner nc = n_owner np).
Proof.
  intros HI Hp Hc Ht1 Ht2 H. destruct (owner_some h c nc HI Hc Ht1 Ht2) as (d & Hd & _).
  unfold check_same_document in H. rewrite (get_node_some _ _ _ Hp), (get_node_some _ _ _ Hc) in H. cbn [rbind] in H.
  rewrite Hd in H. destruct (is_type NDocument np) eqn:Hnp.
  - apply is_type_true in Hnp. split; [|done]. intros _. destruct (upgrade h (Some d)) as [d'|] eqn:Hu; [|done].
    apply upgrade_some in Hu as [[= <-] _]. cbn in H. destruct (bool_decide (p = d)) eqn:Hb; [|done].
    apply bool_decide_eq_true in Hb. congruence.
  - apply is_type_false in Hnp. split; [done|]. intros _. destruct (n_owner np) as [a|]; [|done].
    destruct (upgrade h (Some a)) as [a'|] eqn:Hu1; [|done]. apply upgrade_some in Hu1 as [[= <-] _]. cbn in H.
    destruct (alive h d); [|done]. cbn in H. destruct (bool_decide (a = d)) eqn:Hb; [|done].
    apply bool_decide_eq_true in Hb. congruence.
Qed.
Lemma csd_err h p c e : check_same_document h p c = Err e -> e = WrongDocument.
Proof.
  unfold check_same_document, get_node. destruct (h_nodes h !! p) as [np|]; [|done]. destruct (h_nodes h !! c) as [nc|]; [|done].
  cbn [rbind]. destruct (is_type NDocument np).
  - destruct (n_owner nc) as [d|]; [|done]. destruct (upgrade h (Some d)); [|done]. cbn. destruct (bool_decide _); congruence.
  - destruct (n_owner np) as [a|], (n_owner nc) as [b|]; try congruence.
    destruct (upgrade h (Some a)); [|done]. destruct (upgrade h (Some b)); [|done]. cbn. destruct (bool_decide _); congruence.
Qed.

(** ** remove_child *)
Definition removed (h : heap) (p c : id) (np nc : node) (k : nat) : heap :=
  upd c (set_parent None nc) (upd p (set_children (delete k (n_children np)) np) h).
Lemma remove_child_eq h p c np : Inv h -> h_nodes h !! p = Some np ->
  remove_child p c h = match position c (n_children np) with
                       | None => (h, Err NotFound)
                       | Some k => (match h_nodes h !! c with Some nc => removed h p c np nc k | None => h end, Ok c)
                       end.
Proof.
  intros HI Hp. unfold remove_child, bind at 1, getM, lift, get_node. rewrite Hp.
  destruct (position c (n_children np)) as [k|] eqn:Hk; [|done].
  assert (Hin : In c (n_children np)) by (apply position_lookup in Hk as [Hk _]; by eapply elem_of_list_In, elem_of_list_lookup_2).
  destruct (inv_node h HI p np Hp) as (_ & _ & _ & [G4 _] & _). destruct (G4 c Hin) as (Hne & s & Hs & _).
  apply info_inv in Hs as (nc' & Hc & _). rewrite Hc. rewrite (bind_modifyM _ _ np) by done.
  rewrite (bind_modifyM _ _ nc') by (rewrite lookup_upd_ne; congruence). done.
Qed.
Lemma remove_child_inv h h' p c r : Inv h -> remove_child p c h = (h', r) -> returned r ->
  exists np, h_nodes h !! p = Some np /\
   ((~ In c (n_children np) /\ h' = h /\ r = Err NotFound) \/
    exists nc k, h_nodes h !! c = Some nc /\ position c (n_children np) = Some k /\ p <> c /\
      h' = removed h p c np nc k /\ r = Ok c).
Proof.
  intros HI H Hr. destruct (h_nodes h !! p) as [np|] eqn:Hp.
  2:{ unfold remove_child, bind, getM, lift, get_node in H. rewrite Hp in H. injection H as <- <-. done. }
  exists np. split; [done|]. rewrite (remove_child_eq h p c np HI Hp) in H.
  destruct (position c (n_children np)) as [k|] eqn:Hk.
  - assert (Hin : In c (n_children np)) by (apply position_lookup in Hk as [Hk' _]; by eapply elem_of_list_In, elem_of_list_lookup_2).
    destruct (inv_node h HI p np Hp) as (_ & _ & _ & [G4 _] & _). destruct (G4 c Hin) as (Hne & s & Hs & _).
    apply info_inv in Hs as (nc & Hc & _). rewrite Hc in H. injection H as <- <-. right. exists nc, k. done.
  - injection H as <- <-. left. by apply position_none in Hk.
Qed.

(** ** insert_before *)
Definition attached (h : heap) (p c : id) (np nc : node) (k : nat) : heap :=
  upd p (set_children (take k (n_children np) ++ c :: drop k (n_children np)) np) (upd c (set_parent (Some p) nc) h).

(** Taking [c] out of its current place. *)
Inductive taken_out (h : heap) (c : id) (nc : node) : heap -> Prop :=
| to_none : upgrade h (n_parent nc) = None -> taken_out h c nc h
| to_some q nq k : upgrade h (n_parent nc) = Some q -> h_nodes h !! q = Some nq -> q <> c ->
    position c (n_children nq) = Some k -> taken_out h c nc (removed h q c nq nc k).

Definition no_second (h : heap) (np nc : node) : Prop :=
  n_type np = NDocument -> n_type nc = NElement -> forall y ny, In y (n_children np) -> h_nodes h !! y = Some ny -> n_type ny <> NElement.
Inductive insert_fails (h : heap) (p c : id) (r : option id) (np nc : node) : error -> Prop :=
| if_type : is_child_allowed (n_type np) (n_type nc) = false -> insert_fails h p c r np nc HierarchyRequest
| if_second x nx : is_child_allowed (n_type np) (n_type nc) = true -> n_type np = NDocument -> n_type nc = NElement -> In x (n_children np) ->
    h_nodes h !! x = Some nx -> n_type nx = NElement -> insert_fails h p c r np nc HierarchyRequest
| if_ref x : is_child_allowed (n_type np) (n_type nc) = true -> no_second h np nc -> r = Some x -> ~ In x (n_children np) -> insert_fails h p c r np nc NotFound
| if_doc : is_child_allowed (n_type np) (n_type nc) = true -> no_second h np nc -> (forall x, r = Some x -> In x (n_children np)) -> check_same_document h p c = Err WrongDocument -> insert_fails h p c r np nc WrongDocument
| if_stale q nq : is_child_allowed (n_type np) (n_type nc) = true -> no_second h np nc -> (forall x, r = Some x -> In x (n_children np)) ->
    check_same_document h p c = Ok tt -> n_parent nc = Some q -> h_nodes h !! q = Some nq -> ~ In c (n_children nq) -> insert_fails h p c r np nc NotFound.

Lemma any_element_true h l : any_element h l = Ok true -> exists x nx, In x l /\ h_nodes h !! x = Some nx /\ n_type nx = NElement.
Proof.
  induction l as [|x l IH]; [done|]. cbn. unfold get_node. destruct (h_nodes h !! x) as [n|] eqn:Hx; [|done]. cbn.
  destruct (is_type NElement n) eqn:Ht.
  - intros _. apply is_type_true in Ht. eauto 6.
  - intros H. destruct (IH H) as (y & ny & ? & ?). eauto 6.
Qed.
Lemma any_element_false h l : any_element h l = Ok false -> forall x nx, In x l -> h_nodes h !! x = Some nx -> n_type nx <> NElement.
Proof.
  induction l as [|x l IH]; [done|]. cbn. unfold get_node. destruct (h_nodes h !! x) as [n|] eqn:Hx; [|done]. cbn.
  destruct (is_type NElement n) eqn:Ht; [done|]. intros H y ny [<-|Hy] Hny.
  - apply is_type_false in Ht. congruence.
  - eauto.
Qed.
Lemma any_element_err h l e : any_element h l <> Err e.
Proof.
  induction l as [|x l IH]; [done|]. cbn. unfold get_node. destruct (h_nodes h !! x) as [n|]; [|done]. cbn.
  by destruct (is_type NElement n).
Qed.
Lemma child_type_docs tp tc : is_child_allowed tp tc = true -> tc <> NDocument /\ tc <> NDocumentType /\ tc <> NAttribute /\ tc <> NDocumentFragment.
Proof. by destruct tp, tc. Qed.

Lemma insert_before_inv h h' p c r x : Inv h -> insert_before p c r h = (h', x) -> returned x ->
  exists np nc, h_nodes h !! p = Some np /\ h_nodes h !! c = Some nc /\
  ((exists e, x = Err e /\ h' = h /\ insert_fails h p c r np nc e) \/
   (x = Ok c /\ exists h1 np1 nc1 k,
      taken_out h c nc h1 /\ h_nodes h1 !! p = Some np1 /\ h_nodes h1 !! c = Some nc1 /\ p <> c /\
      h' = attached h1 p c np1 nc1 k /\ (k <= length (n_children np1))%nat /\
      match r with None => k = length (n_children np1) | Some y => position y (n_children np) = Some k end /\
      is_child_allowed (n_type np) (n_type nc) = true /\
      (n_type np = NDocument -> n_owner nc = Some p) /\ (n_type np <> NDocument -> n_owner nc = n_owner np) /\
      (n_type np = NDocument -> n_type nc = NElement ->
         forall y ny, In y (n_children np) -> h_nodes h !! y = Some ny -> n_type ny <> NElement))).
Proof.
  intros HI H Hr. unfold insert_before in H.
  apply bind_getM in H as (np & Hp & H); [|done]. apply bind_getM in H as (nc & Hc & H); [|done].
  exists np, nc. split; [done|]. split; [done|].
  assert (Hal : is_child_allowed (n_type np) (n_type nc) = true \/ is_child_allowed (n_type np) (n_type nc) = false)
    by (destruct is_child_allowed; auto).
  destruct Hal as [Hal|Hal]; rewrite Hal in H; cbn [negb] in H.
  2:{ left. exists HierarchyRequest. injection H as <- <-. split; [done|]. split; [done|]. by apply if_type. }
  destruct (child_type_docs _ _ Hal) as (Hd1 & Hd2 & Hd3 & Hd4).
  (* second element *)
  assert (H2 : (exists e, x = Err e /\ h' = h /\ insert_fails h p c r np nc e) \/
    ((n_type np = NDocument -> n_type nc = NElement ->
         forall y ny, In y (n_children np) -> h_nodes h !! y = Some ny -> n_type ny <> NElement) /\
     bind match r with
             | None => ret None
             | Some r => match position r (n_children np) with
                         | None => fail NotFound
                         | Some k => ret (Some k)
                         end
             end (fun pos =>
      do? _ := lift (fun h => check_same_document h p c) in
      do? parent := lift (fun h => parent_node h c) in
      do? _ := match parent with
               | None => ret tt
               | Some q => do? _ := remove_child q c in ret tt
               end in
      if bool_decide (p = c) then panic_ PBorrow else
      do? _ := modifyM c (fun n => set_owner (if is_type NDocument np then Some p else n_owner np)
                                   (set_parent (Some p) n)) in
      do? _ := insert_or_append p c pos in
      ret c) h = (h', x))).
  { assert (Hfrag : is_type NDocumentFragment nc = false) by (by apply is_type_false).
    rewrite Hfrag in H.
    destruct (is_type NDocument np && is_type NElement nc) eqn:Hde.
    - apply andb_true_iff in Hde as [Hn%is_type_true He%is_type_true].
      apply bind_lift in H as [(b & Hb & H)|(e & He' & _)]; [| |done].
      + destruct b.
        * left. exists HierarchyRequest. injection H as <- <-. split; [done|]. split; [done|].
          apply any_element_true in Hb as (y & ny & Hy & Hny & Hty). by eapply if_second.
        * right. split; [|done]. intros _ _ y ny Hy Hny. by eapply any_element_false.
      + by apply any_element_err in He'.
    - rewrite bind_ret in H. right. split; [|done]. intros Hn He. apply andb_false_iff in Hde as [Hx|Hx]; apply is_type_false in Hx; done. }
  clear H. destruct H2 as [H2|[Hsec H]]; [by left|].
  (* reference *)
  assert (H2 : (exists e, x = Err e /\ h' = h /\ insert_fails h p c r np nc e) \/
    exists pos, match r with None => pos = None | Some y => exists k, pos = Some k /\ position y (n_children np) = Some k end /\
     bind (lift (fun h => check_same_document h p c)) (fun _ =>
      do? parent := lift (fun h => parent_node h c) in
      do? _ := match parent with
               | None => ret tt
               | Some q => do? _ := remove_child q c in ret tt
               end in
      if bool_decide (p = c) then panic_ PBorrow else
      do? _ := modifyM c (fun n => set_owner (if is_type NDocument np then Some p else n_owner np)
                                   (set_parent (Some p) n)) in
      do? _ := insert_or_append p c pos in
      ret c) h = (h', x)).
  { destruct r as [y|].
    - destruct (position y (n_children np)) as [k|] eqn:Hk.
      + right. exists (Some k). split; [eauto|]. by rewrite bind_ret in H.
      + left. exists NotFound. injection H as <- <-. split; [done|]. split; [done|]. eapply if_ref; [done|exact Hsec|done|]. by apply position_none.
    - right. exists None. split; [done|]. by rewrite bind_ret in H. }
  clear H. destruct H2 as [H2|(pos & Hpos & H)]; [by left|].
  assert (Href : forall x, r = Some x -> In x (n_children np)).
  { intros y ->. destruct Hpos as (k & _ & Hk). apply position_lookup in Hk as [Hk _]. by eapply elem_of_list_In, elem_of_list_lookup_2. }
  (* same document *)
  apply bind_lift in H as [([] & Hcsd & H)|(e & He & -> & ->)]; [| |done].
  2:{ left. exists e. split; [done|]. split; [done|]. pose proof (csd_err _ _ _ _ He) as ->. by apply if_doc. }
  destruct (csd_ok h p c np nc HI Hp Hc Hd1 Hd2 Hcsd) as [Ho1 Ho2].
  (* take out *)
  assert (Hpar : parent_node h c = Ok (upgrade h (n_parent nc))).
  { unfold parent_node. rewrite (get_node_some _ _ _ Hc). cbn [rbind]. assert (Ht : is_type NAttribute nc = false) by (by apply is_type_false).
    by rewrite Ht. }
  apply bind_lift in H as [(par & Hpar' & H)|(e & He & _)]; [| congruence|done].
  rewrite Hpar in Hpar'. injection Hpar' as <-.
  assert (H2 : (exists e, x = Err e /\ h' = h /\ insert_fails h p c r np nc e) \/
    exists h1, taken_out h c nc h1 /\
      (if bool_decide (p = c) then panic_ PBorrow else
      do? _ := modifyM c (fun n => set_owner (if is_type NDocument np then Some p else n_owner np)
                                   (set_parent (Some p) n)) in
      do? _ := insert_or_append p c pos in
      ret c) h1 = (h', x)).
  { destruct (upgrade h (n_parent nc)) as [q|] eqn:Hq.
    - rewrite bind_assoc in H. apply bind_inv in H as [(h1 & a & Hrm & H)|(e & Hrm & ->)]; [..|done].
      + apply remove_child_inv in Hrm as (nq & Hnq & [(_ & _ & ?)|(nc' & k & Hc' & Hk & Hne & -> & _)]); [done| |done|done].
        rewrite Hc in Hc'. injection Hc' as <-. rewrite bind_ret in H. right. eexists. split; [|exact H].
        by eapply to_some.
      + apply remove_child_inv in Hrm as (nq & Hnq & [(Hni & -> & [= ->])|(nc' & k & _ & _ & _ & _ & ?)]); [|done|done|done].
        left. exists NotFound. split; [done|]. split; [done|]. apply upgrade_some in Hq as [Hq _]. by eapply if_stale.
    - rewrite bind_ret in H. right. exists h. split; [by apply to_none|done]. }
  clear H. destruct H2 as [H2|(h1 & Hto & H)]; [by left|]. right.
  destruct (decide (p = c)) as [->|Hne]; [rewrite bool_decide_true in H by done; injection H as <- <-; done|].
  rewrite bool_decide_false in H by done.
  assert (Hnodes : exists np1 nc1, h_nodes h1 !! p = Some np1 /\ h_nodes h1 !! c = Some nc1 /\
     static np1 = static np /\ static nc1 = static nc /\
     (length (n_children np1) = length (n_children np) \/
      (length (n_children np1) = length (n_children np) - 1)%nat /\ (0 < length (n_children np))%nat)).
  { destruct Hto as [|q nq k Hq Hnq Hqc Hk].
    - exists np, nc. split_and!; [done..|]. by left.
    - unfold removed. destruct (decide (q = p)) as [->|Hqp].
      + assert (nq = np) by congruence. subst nq. exists (set_children (delete k (n_children np)) np), (set_parent None nc).
        rewrite lookup_upd. rewrite lookup_upd_ne by done. rewrite lookup_upd. split_and!; [done..|]. right. cbn [n_children set_children].
        apply position_lookup in Hk as [Hk _]. apply lookup_lt_Some in Hk as Hlt. rewrite length_delete by eauto. lia.
      + exists np, (set_parent None nc). rewrite lookup_upd. rewrite !lookup_upd_ne by done. split_and!; [done..|]. by left. }
  destruct Hnodes as (np1 & nc1 & Hp1 & Hc1 & Hsp & Hsc & Hlen).
  rewrite (bind_modifyM _ _ nc1) in H by done.
  assert (Ho : n_owner nc1 = (if is_type NDocument np then Some p else n_owner np)).
  { injection Hsc as _ _ ->. destruct (is_type NDocument np) eqn:Hx; [apply is_type_true in Hx|apply is_type_false in Hx]; auto. }
  rewrite set_owner_same in H by done.
  unfold insert_or_append in H. rewrite bind_assoc in H.
  apply bind_getM in H as (np2 & Hp2 & H); [|done]. rewrite lookup_upd_ne in Hp2 by done.
  rewrite Hp1 in Hp2. injection Hp2 as <-.
  assert (Hl' : forall k, (k <= length (n_children np1))%nat ->
     match r with None => k = length (n_children np1) | Some y => position y (n_children np) = Some k end ->
     h' = attached h1 p c np1 nc1 k -> x = Ok c ->
     x = Ok c /\ exists h1 np1 nc1 k,
      taken_out h c nc h1 /\ h_nodes h1 !! p = Some np1 /\ h_nodes h1 !! c = Some nc1 /\ p <> c /\
      h' = attached h1 p c np1 nc1 k /\ (k <= length (n_children np1))%nat /\
      match r with None => k = length (n_children np1) | Some y => position y (n_children np) = Some k end /\
      is_child_allowed (n_type np) (n_type nc) = true /\
      (n_type np = NDocument -> n_owner nc = Some p) /\ (n_type np <> NDocument -> n_owner nc = n_owner np) /\
      (n_type np = NDocument -> n_type nc = NElement ->
         forall y ny, In y (n_children np) -> h_nodes h !! y = Some ny -> n_type ny <> NElement)).
  { intros k Hk1 Hk2 Hh' Hx. split; [done|]. exists h1, np1, nc1, k. split_and!; try done. }
  destruct r as [y|].
  - destruct Hpos as (k & -> & Hk). unfold vec_insert in H.
    assert (Hkl : (k < length (n_children np))%nat) by (apply position_lookup in Hk as [Hk' _]; by eapply lookup_lt_Some).
    assert (Hle : (k <= length (n_children np1))%nat) by lia.
    destruct (Nat.leb_spec k (length (n_children np1))); [|lia].
    rewrite (bind_modifyM _ _ np1) in H by (by rewrite lookup_upd_ne). injection H as <- <-.
    by apply (Hl' k).
  - subst pos. rewrite (bind_modifyM _ _ np1) in H by (by rewrite lookup_upd_ne). injection H as <- <-.
    apply (Hl' (length (n_children np1))); [lia|done| |done]. unfold attached. f_equal. f_equal.
    by rewrite take_ge, drop_ge by lia.
Qed.

(** ** In terms of steps *)
Lemma taken_out_steps h c nc h1 (L : lab -> Prop) : Inv h -> h_nodes h !! c = Some nc -> (forall q, L (LDetach q c)) ->
  taken_out h c nc h1 -> isteps L h h1.
Proof.
  intros HI Hc HL [|q nq k Hq Hnq Hne Hk]; [apply isteps_nil|]. eapply isteps_one; [apply HL|].
  apply upgrade_some in Hq as [Hq _]. by eapply pr_detach.
Qed.
Lemma taken_out_parent h c nc h1 nc1 : Inv h -> h_nodes h !! c = Some nc -> taken_out h c nc h1 -> h_nodes h1 !! c = Some nc1 ->
  upgrade h1 (n_parent nc1) = None /\ n_children nc1 = n_children nc /\ n_value nc1 = n_value nc /\ n_ext nc1 = n_ext nc.
Proof.
  intros HI Hc [Hu|q nq k Hq Hnq Hne Hk] Hc1.
  - assert (nc1 = nc) by congruence. by subst.
  - unfold removed in *. rewrite lookup_upd in Hc1. injection Hc1 as <-. done.
Qed.
Lemma removed_info h p c np nc k : h_nodes h !! p = Some np -> h_nodes h !! c = Some nc -> p <> c ->
  forall j, info (removed h p c np nc k) j = info h j.
Proof.
  intros Hp Hc Hne j. unfold removed. rewrite (info_upd c _ nc); [by apply (info_upd p _ np)| |done].
  by rewrite lookup_upd_ne.
Qed.
Lemma taken_out_info h c nc h1 : h_nodes h !! c = Some nc -> taken_out h c nc h1 -> forall j, info h1 j = info h j.
Proof. intros Hc [|q nq k Hq Hnq Hne Hk]; [done|]. by apply removed_info. Qed.
Lemma taken_out_children h c nc h1 p np np1 : h_nodes h !! c = Some nc -> h_nodes h !! p = Some np -> h_nodes h1 !! p = Some np1 -> p <> c ->
  taken_out h c nc h1 -> static np1 = static np /\ forall y, In y (n_children np1) -> In y (n_children np).
Proof.
  intros Hc Hp Hp1 Hne Hto. revert Hp1. destruct Hto as [|q nq k Hq Hnq Hqc Hk]; intros Hp1.
  - assert (np1 = np) by congruence. by subst.
  - unfold removed in Hp1. rewrite lookup_upd_ne in Hp1 by done. destruct (decide (q = p)) as [->|Hqp].
    + rewrite lookup_upd in Hp1. injection Hp1 as <-. assert (nq = np) by congruence. subst nq. split; [done|].
      cbn. intros y. apply In_delete.
    + rewrite lookup_upd_ne in Hp1 by done. assert (np1 = np) by congruence. by subst.
Qed.

Lemma insert_before_steps h h' p c r x (L : lab -> Prop) : Inv h -> insert_before p c r h = (h', x) -> returned x ->
  (forall q, L (LDetach q c)) -> (forall nc, h_nodes h !! c = Some nc -> L (LAttach p c (is_nil (n_children nc)))) -> isteps L h h'.
Proof.
  intros HI H Hr HL1 HL2.
  destruct (insert_before_inv h h' p c r x HI H Hr) as (np & nc & Hp & Hc & [(e & -> & -> & _)|(-> & h1 & np1 & nc1 & k & Hto & Hp1 & Hc1 & Hne & -> & Hk & _ & Hal & Ho1 & Ho2 & Hsec)]);
    [apply isteps_nil|].
  eapply isteps_app; [by eapply taken_out_steps|].
  destruct (taken_out_parent h c nc h1 nc1 HI Hc Hto Hc1) as (Hup & Hch & _).
  destruct (taken_out_children h c nc h1 p np np1 Hc Hp Hp1 Hne Hto) as [Hsp Hsub].
  pose proof (taken_out_info h c nc h1 Hc Hto) as Hinfo.
  assert (Hsc : static nc1 = static nc).
  { pose proof (Hinfo c) as Hi. rewrite (info_some _ _ _ Hc1), (info_some _ _ _ Hc) in Hi. congruence. }
  injection Hsp as Htp _ Hop. injection Hsc as Htc _ Hoc.
  eapply isteps_one; [apply (HL2 nc Hc)|]. rewrite <- Hch. apply pr_attach; try done.
  - rewrite Htc. by eapply allowed_can_be_child.
  - unfold link_ok, static. cbn [s_type s_owner]. rewrite Htp, Htc, Hop, Hoc. split; [done|]. auto.
  - rewrite Htp, Hoc. done.
  - rewrite Htp, Htc. intros H1 H2 y s Hy Hs. rewrite Hinfo in Hs. apply info_inv in Hs as (ny & Hny & <-). cbn.
    eapply Hsec; eauto.
Qed.
