(** * ProofIsoOps: the mutating calls and the reader respect the correspondence of states *)
From Coq Require Import Lia.
From Verif Require Import SpecIso ProofIso ProofFuel.

Implicit Types R : rel.

(** ** Growing *)
Lemma grows_refl R h h' : grows R h h' R h h'.
Proof.
  split; [|done|done]. exists 0%nat. split; [lia|]. split; [lia|]. intros a b. split; [by left|]. intros [|(k & Hk & _)]; [done|lia].
Qed.
Lemma grows_sub R h h' R1 h1 h1' : grows R h h' R1 h1 h1' -> sub R R1.
Proof. intros G a b H. destruct (gr_rel _ _ _ _ _ _ G) as (d & _ & _ & Hd). apply Hd. by left. Qed.
Lemma grows_trans R h h' R1 h1 h1' R2 h2 h2' : grows R h h' R1 h1 h1' -> grows R1 h1 h1' R2 h2 h2' -> grows R h h' R2 h2 h2'.
Proof.
  intros G1 G2. destruct (gr_rel _ _ _ _ _ _ G1) as (d & N1 & N1' & Hd). destruct (gr_rel _ _ _ _ _ _ G2) as (e & N2 & N2' & He). split.
  - exists (d + e)%nat. split; [lia|]. split; [lia|]. intros a b. rewrite He, Hd. split.
    + intros [[H|(k & Hk & -> & ->)]|(k & Hk & -> & ->)]; [by left| |].
      * right. exists k. lia.
      * right. exists (d + k)%nat. lia.
    + intros [H|(k & Hk & -> & ->)]; [by left; left|]. destruct (decide (k < d)%nat); [left; right; exists k; lia|]. right. exists (k - d)%nat. lia.
  - intros a Ha Ho. rewrite (gr_frame _ _ _ _ _ _ G2); [by apply (gr_frame _ _ _ _ _ _ G1)|lia|]. intros b Hb. apply Hd in Hb as [Hb|(k & _ & -> & _)]; [by eapply Ho|lia].
  - intros b Hb Ho. rewrite (gr_frame' _ _ _ _ _ _ G2); [by apply (gr_frame' _ _ _ _ _ _ G1)|lia|]. intros a Ha. apply Hd in Ha as [Ha|(k & _ & _ & ->)]; [by eapply Ho|lia].
Qed.

(** ** Computations *)
Definition msim {A} (RA : rel -> A -> A -> Prop) R (m m' : M A) : Prop := forall h h', alike R h h' ->
  ((m h).2 = Diverge /\ (m' h').2 = Diverge) \/
  exists R1, alike R1 (m h).1 (m' h').1 /\ grows R h h' R1 (m h).1 (m' h').1 /\ res_rel (RA R1) (m h).2 (m' h').2.
Definition same {A} : rel -> A -> A -> Prop := fun _ => eq.
Definition nodes_ (R : rel) : id -> id -> Prop := R.

(** One to one. *)
Definition bij R : Prop := (forall a b b', R a b -> R a b' -> b = b') /\ (forall a a' b, R a b -> R a' b -> a = a').
Lemma alike_bij R h h' : alike R h h' -> bij R.
Proof. intros H. split; apply H. Qed.
Lemma bij_eq R a a' b b' : bij R -> R a a' -> R b b' -> bool_decide (a = b) = bool_decide (a' = b').
Proof. intros [H1 H2] Ha Hb. apply bool_decide_ext. split; intros ->; eauto. Qed.
Lemma bij_position R i i' l l' : bij R -> R i i' -> Forall2 R l l' -> position i l = position i' l'.
Proof. intros HB Hi. induction 1 as [|a b l l' Hr _ IH]; [done|]. cbn. rewrite IH. by rewrite (bij_eq _ _ _ _ _ HB Hr Hi). Qed.
Lemma msim_bij {A} (RA : rel -> A -> A -> Prop) R m m' : (bij R -> msim RA R m m') -> msim RA R m m'.
Proof. intros H h h' HA. by apply (H (alike_bij _ _ _ HA)). Qed.

Lemma msim_bind {A B} (RA : rel -> A -> A -> Prop) (RB : rel -> B -> B -> Prop) R m m' (k k' : A -> M B) :
  msim RA R m m' -> (forall R1 a a', sub R R1 -> bij R1 -> RA R1 a a' -> msim RB R1 (k a) (k' a')) -> msim RB R (bind m k) (bind m' k').
Proof.
  intros Hm Hk h h' HA. unfold bind. destruct (Hm h h' HA) as [[D1 D2]|(R1 & HA1 & G1 & Hr)].
  - left. destruct (m h) as [h1 r], (m' h') as [h1' r']. cbn in D1, D2. by subst.
  - destruct (m h) as [h1 r], (m' h') as [h1' r']. cbn in HA1, G1, Hr.
    destruct r as [a| | |], r' as [a'| | |]; try done; cbn in Hr; try (right; exists R1; by split_and!).
    destruct (Hk R1 a a' (grows_sub _ _ _ _ _ _ G1) (alike_bij _ _ _ HA1) Hr h1 h1' HA1) as [D|(R2 & HA2 & G2 & Hr2)]; [by left|]. right. exists R2. split; [done|]. split; [by eapply grows_trans|done].
Qed.
Lemma msim_ret {A} (RA : rel -> A -> A -> Prop) R a a' : RA R a a' -> msim RA R (ret a) (ret a').
Proof. intros H h h' HA. right. exists R. split; [done|]. split; [apply grows_refl|done]. Qed.
Lemma msim_fail {A} (RA : rel -> A -> A -> Prop) R e : msim RA R (fail e) (fail e).
Proof. intros h h' HA. right. exists R. split; [done|]. split; [apply grows_refl|done]. Qed.
Lemma msim_panic {A} (RA : rel -> A -> A -> Prop) R e : msim RA R (panic_ e) (panic_ e).
Proof. intros h h' HA. right. exists R. split; [done|]. split; [apply grows_refl|done]. Qed.
Lemma msim_lift {A} (RA : rel -> A -> A -> Prop) R (r r' : heap -> res A) : (forall h h', alike R h h' -> res_rel (RA R) (r h) (r' h')) -> msim RA R (lift r) (lift r').
Proof. intros H h h' HA. right. exists R. split; [done|]. split; [apply grows_refl|]. by apply H. Qed.
Lemma msim_const {A} R (r : res A) : msim same R (lift (fun _ => r)) (lift (fun _ => r)).
Proof. apply msim_lift. intros. by apply rr_refl. Qed.
Lemma msim_get R i i' : R i i' -> msim node_rel R (getM i) (getM i').
Proof. intros Hi. apply msim_lift. intros h h' HA. by eapply s_get. Qed.
Lemma msim_impl {A} (RA RB : rel -> A -> A -> Prop) R m m' : (forall R1 a a', RA R1 a a' -> RB R1 a a') -> msim RA R m m' -> msim RB R m m'.
Proof. intros HI Hm h h' HA. destruct (Hm h h' HA) as [D|(R1 & HA1 & G1 & Hr)]; [by left|]. right. exists R1. split; [done|]. split; [done|]. eapply rr_impl; [apply HI|exact Hr]. Qed.
Lemma msim_modify R i i' f f' : R i i' -> (forall n n', node_rel R n n' -> node_rel R (f n) (f' n')) -> msim same R (modifyM i f) (modifyM i' f').
Proof.
  intros Hi Hf h h' HA. right. exists R. unfold modifyM. pose proof (al_node _ _ _ HA i i' Hi) as Hn. inversion Hn as [n n' Hr E1 E2|E1 E2].
  - cbn. split; [|split; [|done]].
    + split; cbn; try apply HA.
      * intros a b Hab. destruct (decide (a = i)) as [->|Ha].
        -- assert (b = i') as -> by (by eapply (al_fun _ _ _ HA)). rewrite !lookup_insert. constructor. by apply Hf.
        -- assert (b <> i') by (intros ->; apply Ha; by eapply (al_inj _ _ _ HA)). rewrite !lookup_insert_ne by done. by apply HA.
      * intros a m. destruct (decide (a = i)) as [->|Ha]; [intros _; apply (al_lt _ _ _ HA _ _ Hi)|]. rewrite lookup_insert_ne by done. apply HA.
      * intros b m. destruct (decide (b = i')) as [->|Hb]; [intros _; apply (al_lt _ _ _ HA _ _ Hi)|]. rewrite lookup_insert_ne by done. apply HA.
      * intros a m Hm Ho. destruct (decide (a = i)) as [->|Ha]; [by apply Ho in Hi|]. rewrite lookup_insert_ne in Hm by done. by eapply (al_out _ _ _ HA).
      * intros b m Hm Ho. destruct (decide (b = i')) as [->|Hb]; [by apply Ho in Hi|]. rewrite lookup_insert_ne in Hm by done. by eapply (al_out' _ _ _ HA).
    + split; cbn.
      * apply (gr_rel _ _ _ _ _ _ (grows_refl R h h')).
      * intros a _ Ho. apply lookup_insert_ne. intros <-. by apply Ho in Hi.
      * intros b _ Ho. apply lookup_insert_ne. intros <-. by apply Ho in Hi.
  - cbn. split; [done|]. split; [apply grows_refl|done].
Qed.
Lemma msim_alloc R n n' : node_rel R n n' -> msim nodes_ R (allocM n) (allocM n').
Proof.
  intros Hn h h' HA. right. cbn.
  assert (Hlt : forall a b, R a b -> (a < h_next h)%nat /\ (b < h_next h')%nat) by apply HA.
  exists (fun a b => R a b \/ (a = h_next h /\ b = h_next h')). assert (HS : sub R (fun a b => R a b \/ (a = h_next h /\ b = h_next h'))) by (intros a b H; by left).
  split; [|split; [|by right]].
  - split; cbn.
    + intros a b b' [H1|[-> ->]] [H2|[E1 E2]]; subst; try done; [by eapply (al_fun _ _ _ HA)|apply Hlt in H1; lia|apply Hlt in H2; lia].
    + intros a a' b [H1|[-> ->]] [H2|[E1 E2]]; subst; try done; [by eapply (al_inj _ _ _ HA)|apply Hlt in H1; lia|apply Hlt in H2; lia].
    + intros a b [H1|[-> ->]]; [apply Hlt in H1|]; lia.
    + intros a b [H1|[-> ->]].
      * pose proof (Hlt _ _ H1). rewrite !lookup_insert_ne by lia. pose proof (al_node _ _ _ HA a b H1) as Ha. destruct Ha; constructor. by eapply nrel_mono.
      * rewrite !lookup_insert. constructor. by eapply nrel_mono.
    + intros a m. destruct (decide (a = h_next h)) as [->|Ha]; [lia|]. rewrite lookup_insert_ne by done. intros H. pose proof (al_live _ _ _ HA _ _ H). lia.
    + intros a m. destruct (decide (a = h_next h')) as [->|Ha]; [lia|]. rewrite lookup_insert_ne by done. intros H. pose proof (al_live' _ _ _ HA _ _ H). lia.
    + intros a m Hm Ho r Hr. assert (a <> h_next h) by (intros ->; apply (Ho (h_next h')); by right). rewrite lookup_insert_ne in Hm by done.
      destruct (al_out _ _ _ HA a m Hm) with (r := r) as [H1 H2]; [intros b Hb; apply (Ho b); by left|done|]. split; [|lia]. intros b [Hb|[-> _]]; [by apply H1 in Hb|lia].
    + intros a m Hm Ho r Hr. assert (a <> h_next h') by (intros ->; apply (Ho (h_next h)); by right). rewrite lookup_insert_ne in Hm by done.
      destruct (al_out' _ _ _ HA a m Hm) with (r := r) as [H1 H2]; [intros b Hb; apply (Ho b); by left|done|]. split; [|lia]. intros b [Hb|[_ ->]]; [by apply H1 in Hb|lia].
  - split; cbn.
    + exists 1%nat. split; [lia|]. split; [lia|]. intros a b. split; [intros [H|[-> ->]]; [by left|right; exists 0%nat; lia]|intros [H|(k & Hk & -> & ->)]; [by left|right; lia]].
    + intros a Ha _. apply lookup_insert_ne. lia.
    + intros a Ha _. apply lookup_insert_ne. lia.
Qed.
Lemma msim_to_panic {A} (RA : rel -> A -> A -> Prop) R p m m' : msim RA R m m' -> msim RA R (err_to_panic p m) (err_to_panic p m').
Proof.
  intros Hm h h' HA. unfold err_to_panic. destruct (Hm h h' HA) as [[D1 D2]|(R1 & HA1 & G1 & Hr)].
  - left. destruct (m h) as [h1 r], (m' h') as [h1' r']. cbn in D1, D2. by subst.
  - right. exists R1. destruct (m h) as [h1 r], (m' h') as [h1' r']. cbn in HA1, G1, Hr. destruct r, r'; try done; cbn in Hr; by subst.
Qed.

Ltac lift_rel HS :=
  match type of HS with sub ?R ?R1 =>
    repeat match goal with
    | H : R _ _ |- _ => apply HS in H
    | H : nodes_ R ?a ?b |- _ => change (R a b) in H
    | H : lrel R ?a ?b |- _ => change (Forall2 R a b) in H
    | H : node_rel R _ _ |- _ => apply (nrel_mono _ _ _ _ HS) in H
    | H : option_Forall2 R _ _ |- _ => apply (orel_mono _ _ _ _ HS) in H
    | H : orel R _ _ |- _ => apply (orel_mono _ _ _ _ HS) in H
    | H : Forall2 R _ _ |- _ => apply (lrel_mono _ _ _ _ HS) in H
    | H : map_rel R _ _ |- _ => apply (mrel_mono _ _ _ _ HS) in H
    | H : ext_rel R _ _ |- _ => apply (erel_mono _ _ _ _ HS) in H
    | H : bij R |- _ => clear H
    end; clear HS; clear dependent R
  end.
Tactic Notation "nx" simple_intropattern(a) simple_intropattern(a') simple_intropattern(H) :=
  (let R1 := fresh "R" in let HS := fresh "HS" in let HB := fresh "HB" in let H0 := fresh "H0" in intros R1 a a' HS HB H0; unfold nodes_, orel, lrel, same in * |-; lift_rel HS; revert H0; intros H).
Ltac nz := let R1 := fresh "R" in let HS := fresh "HS" in let HB := fresh "HB" in intros R1 ? ? HS HB _; unfold nodes_, orel, lrel, same in * |-; lift_rel HS.
Ltac posn H1 H2 := match goal with HB : bij _ |- _ => rewrite (bij_position _ _ _ _ _ HB H1 H2) end.
Ltac eqb H1 H2 := match goal with HB : bij _ |- _ => rewrite (bij_eq _ _ _ _ _ HB H1 H2) end.
Ltac mb := eapply msim_bind.
Ltac mget := eapply msim_bind; [apply msim_get; eassumption|].
(** What two alike nodes have in common. *)
Ltac nodes H := rewrite ?(nr_type _ _ _ H), ?(nr_name _ _ _ H), ?(nr_value _ _ _ H).

Lemma msim_iter {T} (RA : rel -> T -> T -> Prop) f f' : (forall R1 R2 x x', sub R1 R2 -> RA R1 x x' -> RA R2 x x') ->
  (forall R x x', RA R x x' -> msim same R (f x) (f' x')) -> forall R l l', Forall2 (RA R) l l' -> msim same R (iterM f l) (iterM f' l').
Proof.
  intros Hmono Hf R l l' H. revert R H. revert l'. induction l as [|x l IH]; intros l' R H; inversion H as [|? x' ? m' Hx Hl]; subst; [by apply msim_ret|].
  cbn. mb; [by apply Hf|]. intros R1 _ _ HS _ _. apply IH. eapply Forall2_impl; [exact Hl|]. intros. by eapply Hmono.
Qed.

(** ** Small setters *)
Section setters.
  Context R (n n' : node) (H : node_rel R n n').
  Lemma nr_set_value v : node_rel R (set_value v n) (set_value v n').
  Proof. destruct H. by split. Qed.
  Lemma nr_set_parent p p' : option_Forall2 R p p' -> node_rel R (set_parent p n) (set_parent p' n').
  Proof. destruct H. by split. Qed.
  Lemma nr_set_owner p p' : option_Forall2 R p p' -> node_rel R (set_owner p n) (set_owner p' n').
  Proof. destruct H. by split. Qed.
  Lemma nr_set_children l l' : Forall2 R l l' -> node_rel R (set_children l n) (set_children l' n').
  Proof. destruct H. by split. Qed.
  Lemma nr_set_ext x x' : ext_rel R x x' -> node_rel R (set_ext x n) (set_ext x' n').
  Proof. destruct H. by split. Qed.
End setters.

(** ** Calls *)
Lemma m_append_data R i i' x : R i i' -> msim same R (append_data i x) (append_data i' x).
Proof. intros Hi. unfold append_data. destruct (is_nil x); [by apply msim_ret|]. apply msim_modify; [done|]. intros n n' Hn. nodes Hn. by apply nr_set_value. Qed.
Lemma m_replace_data E R i i' o c x : R i i' -> msim same R (replace_data E i o c x) (replace_data E i' o c x).
Proof.
  intros Hi. unfold replace_data. mget. nx n n' Hn. nodes Hn. mb; [apply msim_const|]. nx v ? <-. apply msim_modify; [done|]. intros m m' Hm. by apply nr_set_value.
Qed.
Lemma m_insert_data E R i i' o x : R i i' -> msim same R (insert_data E i o x) (insert_data E i' o x).
Proof. intros Hi. unfold insert_data. destruct (is_nil x); [by apply msim_ret|]. by apply m_replace_data. Qed.
Lemma m_delete_data E R i i' o c : R i i' -> msim same R (delete_data E i o c) (delete_data E i' o c).
Proof. intros Hi. unfold delete_data. mb; [apply msim_const|]. nx e ? <-. destruct (_ =? _)%N; [by apply msim_ret|]. by apply m_replace_data. Qed.

Lemma m_remove_child R p p' c c' : R p p' -> R c c' -> msim nodes_ R (remove_child p c) (remove_child p' c').
Proof.
  intros Hp Hc. unfold remove_child. mget. nx n n' Hn. posn Hc (nr_children _ _ _ Hn). destruct (position c' _) as [k|]; [|apply msim_fail].
  mb; [apply msim_modify; [done|]; intros m m' Hm; apply nr_set_children, lrel_delete, Hm; done|]. nz. mb; [apply msim_modify; [done|]; intros m m' Hm; apply nr_set_parent; [done|constructor]|].
  nz. by apply msim_ret.
Qed.
Lemma l_vec_insert R k x x' l l' : R x x' -> Forall2 R l l' -> option_Forall2 (Forall2 R) (vec_insert k x l) (vec_insert k x' l').
Proof.
  intros Hx Hl. unfold vec_insert. rewrite (Forall2_length _ _ _ Hl). destruct (k <=? length l')%nat; constructor. apply Forall2_app; [by apply Forall2_take|]. constructor; [done|by apply Forall2_drop].
Qed.
Lemma m_insert_or_append R p p' c c' k : R p p' -> R c c' -> msim same R (insert_or_append p c k) (insert_or_append p' c' k).
Proof.
  intros Hp Hc. unfold insert_or_append. mget. nx n n' Hn. destruct k as [k|].
  - destruct (l_vec_insert _ k c c' _ _ Hc (nr_children _ _ _ Hn)) as [l l' Hl|]; [|apply msim_panic]. apply msim_modify; [done|]. intros m m' Hm. by apply nr_set_children.
  - apply msim_modify; [done|]. intros m m' Hm. apply nr_set_children; [done|]. apply Forall2_app; [apply Hm|by repeat constructor].
Qed.
Lemma m_insert_all k : forall R p p' l l' x, R p p' -> Forall2 R l l' -> msim same R (insert_all p l k x) (insert_all p' l' k x).
Proof.
  intros R p p' l l' x Hp Hl. revert R l' x Hp Hl. induction l as [|c l IH]; intros R l' x Hp Hl; inversion Hl as [|? c' ? m' Hc Hm]; subst; [by apply msim_ret|].
  cbn. mb; [by apply m_insert_or_append|]. nz. by apply IH.
Qed.
Ltac mlift := eapply msim_bind; [eapply msim_lift; let h := fresh "h" in let h' := fresh "h'" in let HA := fresh "HA" in intros h h' HA|].
Lemma m_insert_before R p p' c c' r r' : R p p' -> R c c' -> option_Forall2 R r r' -> msim nodes_ R (insert_before p c r) (insert_before p' c' r').
Proof.
  intros Hp Hc Hr. unfold insert_before, is_type. mget. nx n n' Hn. mget. nx m m' Hm. nodes Hn. nodes Hm. destruct (negb _); [apply msim_fail|].
  mb; [instantiate (1 := same); destruct (_ && _); [|by apply msim_ret]; apply msim_lift; intros; eapply s_any_element; [eassumption|apply Hn]|]. nx second ? <-.
  destruct second; [apply msim_fail|].
  mb; [instantiate (1 := same); destruct Hr as [x x' Hx|]; [|by apply msim_ret]; posn Hx (nr_children _ _ _ Hn); destruct (position x' _); [by apply msim_ret|apply msim_fail]|].
  nx pos ? <-. mb; [eapply msim_lift; intros; by eapply s_same_document|]. nz.
  mb; [apply (msim_lift orel); intros; by eapply s_parent|]. nx q q' Hq.
  mb; [instantiate (1 := same); destruct Hq as [x x' Hx|]; [|by apply msim_ret]; mb; [by apply m_remove_child|]; nz; by apply msim_ret|]. nz.
  eqb Hp Hc. destruct (bool_decide _); [apply msim_panic|].
  mb; [apply msim_modify; [exact Hc|]; intros y y' Hy; apply nr_set_owner; [apply nr_set_parent; [done|by constructor]|]; destruct (type_eqb _ _); [by constructor|apply Hn]|]. nz.
  mb; [instantiate (1 := same); destruct (type_eqb _ _); [|by apply m_insert_or_append]; mb; [apply (msim_lift lrel); intros; by eapply s_children|]; nx l l' Hl; by apply m_insert_all|]. nz.
  by apply msim_ret.
Qed.

Lemma m_append_child R p p' c c' : R p p' -> R c c' -> msim nodes_ R (append_child p c) (append_child p' c').
Proof. intros. apply m_insert_before; [done|done|constructor]. Qed.
Lemma bij_elem R i i' l l' : bij R -> R i i' -> Forall2 R l l' -> bool_decide (i ∈ l) = bool_decide (i' ∈ l').
Proof.
  intros HB Hi Hl. apply bool_decide_ext. induction Hl as [|a b l l' Hr _ IH]; [split; intros H; by apply elem_of_nil in H|]. rewrite !elem_of_cons, IH.
  assert (i = a <-> i' = b); [|tauto]. destruct HB as [H1 H2]. split; intros ->; eauto.
Qed.
Lemma m_replace_child R p p' c c' x x' : R p p' -> R c c' -> R x x' -> msim nodes_ R (replace_child p c x) (replace_child p' c' x').
Proof.
  intros Hp Hc Hx. unfold replace_child. mget. nx n n' Hn. mget. nx m m' Hm. nodes Hn. nodes Hm. destruct (negb _); [apply msim_fail|].
  match goal with HB : bij _ |- _ => rewrite (bij_elem _ _ _ _ _ HB Hx (nr_children _ _ _ Hn)) end. destruct (bool_decide _); [|apply msim_fail].
  mb; [apply (msim_lift orel); intros; by eapply s_next|]. nx q q' Hq. mb; [by apply m_remove_child|]. nx y y' Hy. mb; [by apply m_insert_before|]. nz. by apply msim_ret.
Qed.
Lemma m_normalize_step R p p' c c' : R p p' -> R c c' -> msim same R (normalize_step p c) (normalize_step p' c').
Proof.
  intros Hp Hc. unfold normalize_step, is_type. mget. nx n n' Hn. nodes Hn. destruct (type_eqb _ _); [|by apply msim_ret].
  mb; [apply (msim_lift same); intros; by eapply s_length|]. nx len ? <-. destruct (_ =? _)%N.
  - mb; [apply msim_to_panic; by apply m_remove_child|]. nz. by apply msim_ret.
  - mb; [apply (msim_lift orel); intros; by eapply s_previous|]. nx q q' Hq. destruct Hq as [x x' Hx|]; [|by apply msim_ret].
    mget. nx m m' Hm. nodes Hm. destruct (type_eqb _ _); [|by apply msim_ret].
    mb; [apply (msim_lift same); intros; eapply rr_bind; [by eapply s_value|]; intros v ? <-; by apply rr_refl|]. nx v ? <-.
    mb; [apply msim_to_panic; by apply m_append_data|]. nz. mb; [apply msim_to_panic; by apply m_remove_child|]. nz. by apply msim_ret.
Qed.
Lemma m_normalize R p p' : R p p' -> msim same R (normalize p) (normalize p').
Proof.
  intros Hp. unfold normalize. mget. nx n n' Hn. apply (msim_iter (fun R x x' => R p p' /\ R x x')).
  - intros R1 R2 x x' HS [H1 H2]. split; by apply HS.
  - intros R1 x x' [H1 H2]. by apply m_normalize_step.
  - eapply Forall2_impl; [apply Hn|]. done.
Qed.
Lemma nr_text R d d' s : R d d' -> node_rel R (new_text d s) (new_text d' s).
Proof. intros. repeat constructor. done. Qed.
Lemma nr_cdata R d d' s : R d d' -> node_rel R (new_cdata d s) (new_cdata d' s).
Proof. intros. repeat constructor. done. Qed.
Lemma m_split E R i i' o : R i i' -> msim nodes_ R (DomOps.split E i o) (DomOps.split E i' o).
Proof.
  intros Hi. unfold DomOps.split, is_character_data, is_type. mget. nx n n' Hn. nodes Hn. destruct (negb _); [apply msim_fail|].
  mb; [apply (msim_lift same); intros; by eapply s_length|]. nx len ? <-.
  mb; [instantiate (1 := same); destruct (_ <=? _)%N; [by apply msim_ret|]; mb; [apply (msim_lift same); intros; by eapply s_substring|]; nx s ? <-; mb; [by apply m_delete_data|]; nz; by apply msim_ret|].
  nx s ? <-. mget. nx m m' Hm. nodes Hm.
  mb.
  { instantiate (1 := node_rel). assert (G : forall R (mk : id -> str -> node), (forall d d', R d d' -> node_rel R (mk d s) (mk d' s)) -> option_Forall2 R (n_owner m) (n_owner m') -> msim node_rel R (do? d := lift (fun _ => unwrap_opt (n_owner m)) in ret (mk d s)) (do? d := lift (fun _ => unwrap_opt (n_owner m')) in ret (mk d s))).
    { intros Q mk Hmk Ho. destruct Ho as [d d' Hd|]; cbn; intros h h' HA; right; exists Q; (split; [done|]); (split; [apply grows_refl|]); [by apply Hmk|done]. }
    destruct (n_type m'); try apply msim_fail; (apply G; [|apply Hm]); intros d d' Hd; [by apply nr_text|by apply nr_cdata]. }
  nx y y' Hy. mb; [by apply msim_alloc|]. nx z z' Hz. mb; [apply (msim_lift orel); intros; by eapply s_parent|]. nx q q' Hq. destruct Hq as [x x' Hx|]; [|by apply msim_ret].
  mb; [apply (msim_lift orel); intros; by eapply s_next|]. nx q q' Hq. mb; [by apply m_insert_before|]. nz. by apply msim_ret.
Qed.
Lemma m_attr_unset R i i' : R i i' -> msim same R (attr_unset_value i) (attr_unset_value i').
Proof. intros Hi. apply msim_modify; [done|]. intros n n' Hn. by apply nr_set_children. Qed.
Lemma m_owner_unwrap R i i' : R i i' -> msim nodes_ R (lift (fun h => let? o := owner_document h i in unwrap_opt o)) (lift (fun h => let? o := owner_document h i' in unwrap_opt o)).
Proof. intros Hi. apply msim_lift. intros h h' HA. eapply rr_bind; [by eapply s_owner|]. intros o o' Ho. by eapply s_unwrap. Qed.
Lemma m_attr_set R i i' v : R i i' -> msim same R (attr_set_value i v) (attr_set_value i' v).
Proof.
  intros Hi. unfold attr_set_value, is_type. mb; [by apply m_attr_unset|]. nz. mb; [by apply m_owner_unwrap|]. nx d d' Hd. mget. nx n n' Hn. nodes Hn. destruct (negb _); [apply msim_panic|].
  mb; [apply msim_alloc; by apply nr_text|]. nx t t' Ht. mb; [by apply m_append_child|]. nz. by apply msim_ret.
Qed.
Lemma m_insert_mapping R i i' p u : R i i' -> msim same R (insert_mapping i p u) (insert_mapping i' p u).
Proof.
  intros Hi. unfold insert_mapping, is_type. mb; [apply (msim_lift same); intros; by eapply s_add_namespaces|]. nx b ? <-. destruct (negb b); [by apply msim_ret|].
  mget. nx n n' Hn. nodes Hn. destruct (type_eqb _ _); [|apply msim_fail]. destruct (nr_ext _ _ _ Hn); try apply msim_fail. apply msim_modify; [done|]. intros m m' Hm. apply nr_set_ext; [done|]. by constructor.
Qed.
Lemma m_attr_value E R i i' : R i i' -> msim same R (lift (fun h => let? v := attr_value E h i in unwrap_opt v)) (lift (fun h => let? v := attr_value E h i' in unwrap_opt v)).
Proof. intros Hi. apply (msim_lift same). intros h h' HA. eapply rr_bind; [by eapply s_attr_value|]. intros v ? <-. by apply rr_refl. Qed.
Lemma m_set_attribute_node E R e e' a a' : R e e' -> R a a' -> msim nodes_ R (set_attribute_node E e a) (set_attribute_node E e' a').
Proof.
  intros He Ha. unfold set_attribute_node, is_type. mget. nx n n' Hn. mget. nx m m' Hm. nodes Hn. nodes Hm. destruct (negb _); [apply msim_fail|].
  mb; [apply (msim_lift same); intros; by eapply s_same_document|]. nz.
  mb; [instantiate (1 := same); destruct (nr_ext _ _ _ Hm); try apply msim_panic; apply msim_modify; [done|]; intros x x' Hx; apply nr_set_ext; [done|]; by repeat constructor|]. nz. cbv zeta.
  mb; [instantiate (1 := same); destruct (is_namespace_attribute _); [|by apply msim_ret]; mb; [by apply m_attr_value|]; nx v ? <-; by apply m_insert_mapping|]. nz.
  mget. nx x x' Hx. destruct (nr_ext _ _ _ Hx) as [| | | |l l' ns Hl| |]; try apply msim_fail.
  mb; [apply msim_modify; [exact He|]; intros y y' Hy; apply nr_set_ext; [done|]; constructor; by apply mrel_insert|]. nz.
  mb; [by apply (m_owner_unwrap _ a a')|]. nx d d' Hd. eqb Hd He. destruct (bool_decide _); [apply msim_panic|]. mget. nx y y' Hy. cbv zeta.
  assert (HX := nr_ext _ _ _ Hy). destruct HX as [| |dc t t' mp mp' o Ht Hmp| | | |]; try (destruct (is_id_attribute _ _); by apply msim_ret).
  destruct (is_id_attribute _ _); [|by apply msim_ret]. mb; [by apply m_attr_value|]. nx v ? <-. destruct (mrel_get _ v _ _ Hmp); [apply msim_fail|].
  mb; [apply msim_modify; [exact Hd|]; intros z z' Hz; apply nr_set_ext; [done|]; constructor; [done|]; by apply mrel_insert|]. nz. by apply msim_ret.
Qed.
Lemma m_new_attribute R d d' n v : R d d' -> msim node_rel R (new_attribute d n v) (new_attribute d' n v).
Proof.
  intros Hd. unfold new_attribute. mb; [instantiate (1 := lrel); destruct v as [v|]; [|apply msim_ret; constructor]; mb; [apply msim_alloc; by apply nr_text|]; nx t t' Ht; apply msim_ret; by repeat constructor|].
  nx l l' Hl. apply msim_ret. repeat constructor; done.
Qed.
Lemma m_set_new_attribute E R e e' n v : R e e' -> msim same R (set_new_attribute E e n v) (set_new_attribute E e' n v).
Proof.
  intros He. unfold set_new_attribute. mget. nx m m' Hm. mb; [apply (msim_lift nodes_); intros h h' HA; eapply s_unwrap; apply Hm|]. nx d d' Hd.
  mb; [by apply m_new_attribute|]. nx x x' Hx. mb; [by apply msim_alloc|]. nx a a' Ha. mb; [by apply m_set_attribute_node|]. nz. by apply msim_ret.
Qed.
Lemma m_set_attribute E R e e' n v : R e e' -> msim same R (set_attribute E e n v) (set_attribute E e' n v).
Proof. intros He. unfold set_attribute. mb; [apply msim_const|]. nx nm ? <-. by apply m_set_new_attribute. Qed.
Lemma m_set_attribute_ns E R e e' u n v : R e e' -> msim same R (set_attribute_ns E e u n v) (set_attribute_ns E e' u n v).
Proof. intros He. unfold set_attribute_ns. mb; [apply msim_const|]. nx nm ? <-. by apply m_set_new_attribute. Qed.
Lemma m_remove_attribute_node R e e' a a' : R e e' -> R a a' -> msim nodes_ R (remove_attribute_node e a) (remove_attribute_node e' a').
Proof.
  intros He Ha. unfold remove_attribute_node, is_type. mget. nx n n' Hn. nodes Hn. destruct (type_eqb _ _); [|apply msim_fail]. destruct (nr_ext _ _ _ Hn) as [| | | |l l' ns Hl| |]; try apply msim_fail.
  eqb Ha He. destruct (bool_decide _); [apply msim_panic|]. mget. nx m m' Hm. nodes Hm.
  mb; [apply msim_modify; [exact He|]; intros y y' Hy; apply nr_set_ext; [done|]; constructor; by apply mrel_remove|]. nz.
  mb; [apply msim_modify; [exact Ha|]; intros y y' Hy; apply nr_set_parent; [done|constructor]|]. nz. by apply msim_ret.
Qed.
Lemma m_remove_attribute E (HE : ordered_by_keys E) R e e' n : R e e' -> msim same R (remove_attribute E e n) (remove_attribute E e' n).
Proof.
  intros He. unfold remove_attribute. mb; [apply (msim_lift orel); intros; by eapply s_attr_node|]. nx o o' Ho. destruct Ho as [a a' Ha|]; [|by apply msim_ret].
  mb; [by apply m_remove_attribute_node|]. nz. by apply msim_ret.
Qed.
Lemma m_remove_attribute_ns E (HE : ordered_by_keys E) R e e' u l : R e e' -> msim same R (remove_attribute_ns E e u l) (remove_attribute_ns E e' u l).
Proof.
  intros He. unfold remove_attribute_ns. mb; [apply (msim_lift orel); intros; by eapply s_attr_node_ns|]. nx o o' Ho. destruct Ho as [a a' Ha|]; [|by apply msim_ret].
  mb; [by apply m_remove_attribute_node|]. nz. by apply msim_ret.
Qed.
Lemma m_decl R d d' x : R d d' -> msim same R (set_xml_declaration d x) (set_xml_declaration d' x).
Proof.
  intros Hd. unfold set_xml_declaration. mget. nx n n' Hn. destruct (nr_ext _ _ _ Hn) as [| |dc t t' mp mp' o Ht Hmp| | | |]; try apply msim_fail.
  apply msim_modify; [done|]. intros y y' Hy. apply nr_set_ext; [done|]. by constructor.
Qed.

(** *** Factories *)
Lemma m_handle {A} (RA : rel -> A -> A -> Prop) R d d' (m m' : M A) : R d d' -> (forall R1, sub R R1 -> msim RA R1 m m') -> msim RA R (with_handle d m) (with_handle d' m').
Proof. intros Hd Hm. unfold with_handle. mget. intros R1 n n' HS _ _. by apply Hm. Qed.
Ltac fac := match goal with Hd : ?R ?d ?d' |- msim _ ?R _ _ =>
  apply m_handle; [exact Hd|let R1 := fresh "R1" in let HS := fresh "HS" in intros R1 HS; apply HS in Hd; clear HS] end.
Ltac named := mb; [apply msim_const|]; nx nm ? <-.
Ltac fresh_node := apply msim_alloc; repeat constructor; done.
Lemma m_create_element R d d' n : R d d' -> msim nodes_ R (create_element d n) (create_element d' n).
Proof. intros Hd. unfold create_element. fac. named. fresh_node. Qed.
Lemma m_create_element_ns R d d' u n : R d d' -> msim nodes_ R (create_element_ns d u n) (create_element_ns d' u n).
Proof. intros Hd. unfold create_element_ns. fac. named. fresh_node. Qed.
Lemma m_create_attribute R d d' n : R d d' -> msim nodes_ R (create_attribute d n) (create_attribute d' n).
Proof. intros Hd. unfold create_attribute. fac. named. mb; [by apply m_new_attribute|]. nx x x' Hx. by apply msim_alloc. Qed.
Lemma m_create_attribute_with R d d' n v : R d d' -> msim nodes_ R (create_attribute_with d n v) (create_attribute_with d' n v).
Proof. intros Hd. unfold create_attribute_with. fac. named. mb; [by apply m_new_attribute|]. nx x x' Hx. by apply msim_alloc. Qed.
Lemma m_create_attribute_ns R d d' u n : R d d' -> msim nodes_ R (create_attribute_ns d u n) (create_attribute_ns d' u n).
Proof. intros Hd. unfold create_attribute_ns. fac. named. mb; [by apply m_new_attribute|]. nx x x' Hx. by apply msim_alloc. Qed.
Lemma m_create_text R d d' s : R d d' -> msim nodes_ R (create_text_node d s) (create_text_node d' s).
Proof. intros Hd. unfold create_text_node. fac. fresh_node. Qed.
Lemma m_create_cdata R d d' s : R d d' -> msim nodes_ R (create_cdata_section d s) (create_cdata_section d' s).
Proof. intros Hd. unfold create_cdata_section. fac. fresh_node. Qed.
Lemma m_create_comment R d d' s : R d d' -> msim nodes_ R (create_comment d s) (create_comment d' s).
Proof. intros Hd. unfold create_comment. fac. fresh_node. Qed.
Lemma m_create_pi R d d' t s : R d d' -> msim nodes_ R (create_processing_instruction d t s) (create_processing_instruction d' t s).
Proof. intros Hd. unfold create_processing_instruction. fac. destruct (str_eqb _ _); [apply msim_fail|]. named. fresh_node. Qed.
Lemma m_create_fragment R d d' : R d d' -> msim nodes_ R (create_document_fragment d) (create_document_fragment d').
Proof. intros Hd. unfold create_document_fragment. fac. fresh_node. Qed.
Lemma m_create_entity_reference R d d' n : R d d' -> msim nodes_ R (create_entity_reference d n) (create_entity_reference d' n).
Proof. intros Hd. unfold create_entity_reference. fac. named. fresh_node. Qed.
Lemma m_create_notation R d d' n p s : R d d' -> msim nodes_ R (create_notation d n p s) (create_notation d' n p s).
Proof. intros Hd. unfold create_notation. fac. named. fresh_node. Qed.
Lemma m_create_entity R d d' n p s : R d d' -> msim nodes_ R (create_entity d n p s) (create_entity d' n p s).
Proof. intros Hd. unfold create_entity. fac. named. fresh_node. Qed.
Lemma m_create_internal_entity R d d' n v : R d d' -> msim nodes_ R (create_internal_entity d n v) (create_internal_entity d' n v).
Proof. intros Hd. unfold create_internal_entity. fac. named. fresh_node. Qed.
Lemma m_create_document_type R q p s : msim nodes_ R (create_document_type q p s) (create_document_type q p s).
Proof. unfold create_document_type. named. apply msim_alloc. repeat constructor. Qed.
Lemma m_create_document R u q t t' o : option_Forall2 R t t' -> msim nodes_ R (create_document_with_options u q t o) (create_document_with_options u q t' o).
Proof.
  intros Ht. unfold create_document_with_options.
  mb; [instantiate (1 := same); destruct Ht as [x x' Hx|]; [fac|]; by apply msim_ret|]. nz.
  mb; [apply msim_alloc; repeat constructor; done|]. nx d d' Hd.
  mb; [instantiate (1 := orel); destruct u as [u|], q as [q|]; [| | |apply msim_ret; constructor]|].
  - mb; [by apply m_create_element_ns|]. nx e e' He. apply msim_ret. by constructor.
  - apply msim_fail.
  - mb; [by apply m_create_element|]. nx e e' He. apply msim_ret. by constructor.
  - nx e e' He. mb; [instantiate (1 := same); destruct He as [x x' Hx|]; [|by apply msim_ret]; mb; [by apply m_append_child|]; nz; by apply msim_ret|]. nz. by apply msim_ret.
Qed.
