(** * ProofIsoExec: cloning, dropping, reading a document, and every call *)
From Coq Require Import Lia.
From Verif Require Import SpecIso ProofIso ProofFuel ProofIsoOps.

Implicit Types R : rel.

(** ** Cloning *)
Lemma msim_map f f' : (forall R x x', R x x' -> msim nodes_ R (f x) (f' x')) -> forall R l l', Forall2 R l l' -> msim lrel R (mapM_ f l) (mapM_ f' l').
Proof.
  intros Hf R l l' H. revert R H. revert l'. induction l as [|x l IH]; intros l' R H; inversion H as [|? x' ? m' Hx Hl]; subst; [apply msim_ret; constructor|].
  cbn. mb; [by apply Hf|]. nx y y' Hy. mb; [by apply IH|]. nx z z' Hz. apply msim_ret. by constructor.
Qed.
Lemma m_clone_rec k deep : forall R i i', R i i' -> msim nodes_ R (clone_rec k deep i) (clone_rec k deep i').
Proof.
  induction k as [|k IH]; intros R i i' Hi; [intros h h' HA; by left|]. cbn. mget. nx n n' Hn.
  mb; [instantiate (1 := lrel); destruct deep; [|apply msim_ret; constructor]; eapply msim_map; [apply IH|apply Hn]|]. nx l l' Hl.
  apply msim_alloc. destruct Hn. split; try done. constructor.
Qed.
Lemma map_mono (f g : id -> M id) : (forall x h, (f x h).2 <> Diverge -> g x h = f x h) -> forall l h, (mapM_ f l h).2 <> Diverge -> mapM_ g l h = mapM_ f l h.
Proof.
  intros H l. induction l as [|x l IH]; intros h Hd; [done|]. cbn in *. unfold bind in *. specialize (H x h). destruct (f x h) as [h1 [y|e|p|]]; cbn in *; try done; try (rewrite H by done; done).
  rewrite H by done. specialize (IH h1). destruct (mapM_ f l h1) as [h2 [ys|e|p|]]; cbn in *; try done; rewrite IH by done; done.
Qed.
Lemma clone_step k deep i h : clone_rec (S k) deep i h = (do? n := getM i in
      do? children := (if deep then mapM_ (clone_rec k deep) (n_children n) else ret []) in
      allocM (mkNode (n_type n) (n_name n) (n_value n) None (n_owner n) children (n_ext n))) h.
Proof. done. Qed.
Lemma clone_mono k deep : forall i h, (clone_rec k deep i h).2 <> Diverge -> clone_rec (S k) deep i h = clone_rec k deep i h.
Proof.
  induction k as [|k IH]; intros i h Hd; [done|]. rewrite (clone_step k) in *. rewrite (clone_step (S k)). remember (clone_rec (S k) deep) as g eqn:Hgg. clear Hgg.
  unfold bind, getM, lift in *. destruct (get_node h i) as [n| | |]; try done. destruct deep; [|done].
  pose proof (map_mono (clone_rec k true) g IH (n_children n) h) as HM. destruct (mapM_ (clone_rec k true) (n_children n) h) as [h1 [l|e|p|]]; try done; cbn [fst snd] in *; rewrite HM by done; done.
Qed.
Lemma clone_mono_le k m deep i h : (k <= m)%nat -> (clone_rec k deep i h).2 <> Diverge -> clone_rec m deep i h = clone_rec k deep i h.
Proof. induction 1 as [|m Hm IH]; [done|]. intros Hd. rewrite <- (IH Hd). apply clone_mono. by rewrite (IH Hd). Qed.
(** Whether a clone returns depends on the nodes of [h] alone. *)
Section size.
  Context (h : heap) (P : id -> Prop) (HP : forall i n c, P i -> h_nodes h !! i = Some n -> In c (n_children n) -> P c) (Hlt : forall i, P i -> (i < h_next h)%nat).
  Definition extends (h0 : heap) : Prop := (h_next h <= h_next h0)%nat /\ forall a, (a < h_next h)%nat -> h_nodes h0 !! a = h_nodes h !! a.
  Definition like_size {A B} (r : res A) (p : heap * res B) : Prop :=
    match r with
    | Ok _ => (exists y, p.2 = Ok y) /\ extends p.1
    | Err _ => False
    | Panic x => p.2 = Panic x
    | Diverge => p.2 = Diverge
    end.
  Lemma clone_size k deep : forall i h0, P i -> extends h0 -> like_size (size_rec h k deep i) (clone_rec k deep i h0).
  Proof.
    induction k as [|k IH]; intros i h0 Hi H0; [done|]. cbn. unfold bind, getM, lift. assert (Hg : get_node h0 i = get_node h i) by (unfold get_node; rewrite (proj2 H0); [done|by apply Hlt]).
    rewrite Hg. unfold get_node in *. destruct (h_nodes h !! i) as [n|] eqn:Hn; [|done]. cbn.
    assert (HL : deep = true -> forall l h1, (forall c, In c l -> P c) -> extends h1 -> like_size (concat_res (size_rec h k deep) l) (mapM_ (clone_rec k deep) l h1)).
    { intros -> l. induction l as [|c l IHl]; intros h1 Hl H1; [cbn; eauto|]. cbn. unfold bind. specialize (IH c h1 (Hl c ltac:(by left)) H1).
      destruct (size_rec h k true c) as [x|x|x|] eqn:Ex; cbn in IH.
      - destruct IH as [[y Hy] He]. destruct (clone_rec k true c h1) as [h2 r]. cbn in Hy, He. subst r. cbn. specialize (IHl h2 (fun c Hc => Hl c (or_intror Hc)) He).
        destruct (concat_res (size_rec h k true) l) as [z|z|z|]; cbn in IHl.
        + destruct IHl as [[u Hu] He2]. destruct (mapM_ (clone_rec k true) l h2) as [h3 r]. cbn in Hu, He2. subst r. cbn. eauto.
        + done.
        + destruct (mapM_ (clone_rec k true) l h2) as [h3 r]. cbn in IHl. by subst r.
        + destruct (mapM_ (clone_rec k true) l h2) as [h3 r]. cbn in IHl. by subst r.
      - done.
      - destruct (clone_rec k true c h1) as [h2 r]. cbn in IH. by subst r.
      - destruct (clone_rec k true c h1) as [h2 r]. cbn in IH. by subst r. }
    assert (HX : forall h1, extends h1 -> forall nd, extends (allocM nd h1).1).
    { intros h1 [N1 E1] nd. split; cbn; [lia|]. intros a Ha. rewrite lookup_insert_ne by lia. by apply E1. }
    destruct deep.
    - specialize (HL eq_refl (n_children n) h0 (fun c Hc => HP i n c Hi Hn Hc) H0). destruct (concat_res (size_rec h k true) (n_children n)) as [z|z|z|]; cbn in HL.
      + destruct HL as [[u Hu] He]. destruct (mapM_ (clone_rec k true) (n_children n) h0) as [h3 r]. cbn in Hu, He. subst r. cbn. split; [eauto|]. by apply (HX h3 He).
      + done.
      + destruct (mapM_ (clone_rec k true) (n_children n) h0) as [h3 r]. cbn in HL. by subst r.
      + destruct (mapM_ (clone_rec k true) (n_children n) h0) as [h3 r]. cbn in HL. by subst r.
    - cbn. split; [eauto|]. apply (HX h0 H0 (mkNode (n_type n) (n_name n) (n_value n) None (n_owner n) [] (n_ext n))).
  Qed.
  Lemma clone_stable k m deep i : P i -> (forall j n, h_nodes h !! j = Some n -> (j < h_next h)%nat) -> (S (h_next h) <= k)%nat -> (k <= m)%nat ->
    clone_rec m deep i h = clone_rec k deep i h \/ ((clone_rec m deep i h).2 = Diverge /\ (clone_rec k deep i h).2 = Diverge).
  Proof.
    intros Hi Hl Hk Hm. destruct (is_diverge (clone_rec k deep i h).2) as [Hd|Hd]; [|left; by apply clone_mono_le]. right. split; [|done].
    assert (H0 : extends h) by (split; [lia|done]). pose proof (clone_size k deep i h Hi H0) as H1. pose proof (clone_size m deep i h Hi H0) as H2. rewrite (size_stable h Hl deep k m i Hk Hm) in H2.
    destruct (size_rec h k deep i); cbn in *; [destruct H1 as [[y Hy] _]; congruence|done|congruence|done].
  Qed.
End size.
Lemma m_clone R deep i i' : R i i' -> msim nodes_ R (clone_node deep i) (clone_node deep i').
Proof.
  intros Hi h h' HA. unfold clone_node, walk_fuel. set (F := Nat.max (S (h_next h)) (S (h_next h'))).
  assert (S1 := clone_stable h (fun a => exists b, R a b)
    (fun a n c '(ex_intro _ b Hab) Hn Hc => ltac:(pose proof (al_node _ _ _ HA a b Hab) as Hr; rewrite Hn in Hr; inversion Hr as [? n' HN|]; subst; apply elem_of_list_In, elem_of_list_lookup in Hc as [k Hk];
       pose proof (lrel_lookup _ _ _ k (nr_children _ _ _ HN)) as HC; rewrite Hk in HC; inversion HC; subst; eauto))
    (fun a '(ex_intro _ b Hab) => proj1 (al_lt _ _ _ HA a b Hab)) (S (h_next h)) F deep i (ex_intro _ i' Hi) (al_live _ _ _ HA) ltac:(lia) ltac:(lia)).
  assert (S2 := clone_stable h' (fun b => exists a, R a b)
    (fun b n c '(ex_intro _ a Hab) Hn Hc => ltac:(pose proof (al_node _ _ _ HA a b Hab) as Hr; rewrite Hn in Hr; inversion Hr as [n' ? HN|]; subst; apply elem_of_list_In, elem_of_list_lookup in Hc as [k Hk];
       pose proof (lrel_lookup _ _ _ k (nr_children _ _ _ HN)) as HC; rewrite Hk in HC; inversion HC; subst; eauto))
    (fun b '(ex_intro _ a Hab) => proj2 (al_lt _ _ _ HA a b Hab)) (S (h_next h')) F deep i' (ex_intro _ i Hi) (al_live' _ _ _ HA) ltac:(lia) ltac:(lia)).
  pose proof (m_clone_rec F deep R i i' Hi h h' HA) as HF. destruct S1 as [E1|[D1 D1']], S2 as [E2|[D2 D2']].
  - rewrite <- E1, <- E2. exact HF.
  - destruct HF as [[D3 _]|(R1 & _ & _ & Hr)]; [left; split; [by rewrite <- E1|done]|]. rewrite D2 in Hr. rewrite E1 in Hr. left. split; [|done]. by destruct (clone_rec (S (h_next h)) deep i h) as [? []].
  - destruct HF as [[_ D3]|(R1 & _ & _ & Hr)]; [left; split; [done|by rewrite <- E2]|]. rewrite D1 in Hr. rewrite E2 in Hr. left. split; [done|]. by destruct (clone_rec (S (h_next h')) deep i' h') as [? []].
  - by left.
Qed.

(** ** Dropping *)
Lemma lookup_delete_all (m : gmap nat node) l i : foldr delete m l !! i = if bool_decide (i ∈ l) then None else m !! i.
Proof.
  induction l as [|x l IH]; cbn; [by rewrite bool_decide_eq_false_2 by apply not_elem_of_nil|]. destruct (decide (i = x)) as [->|Hx].
  - rewrite lookup_delete. by rewrite bool_decide_eq_true_2 by left.
  - rewrite lookup_delete_ne, IH by done. assert (bool_decide (i ∈ x :: l) = bool_decide (i ∈ l)) as ->; [|done]. apply bool_decide_ext. rewrite elem_of_cons. tauto.
Qed.
Lemma refs_rel R n n' : node_rel R n n' -> Forall2 R (strong_refs n) (strong_refs n').
Proof.
  intros H. unfold strong_refs. apply Forall2_app; [apply H|].
  assert (G : forall K (m m' : list (K * id)), map_rel R m m' -> Forall2 R (map snd m) (map snd m')) by (intros K m m'; induction 1 as [|p q m m' [_ Hp] _ IH]; constructor; done).
  destruct (nr_ext _ _ _ H) as [| |d t t' m m' o Ht Hm| | | |]; cbn; try constructor; [|apply Forall2_app; by apply G|by apply G]. destruct Ht; by repeat constructor.
Qed.
Lemma m_drop R l l' : Forall2 R l l' -> msim same R (drop_nodes l) (drop_nodes l').
Proof.
  intros Hl h h' HA. right. exists R. pose proof (alike_bij _ _ _ HA) as HB. unfold drop_nodes.
  assert (Hin : forall i i', R i i' -> i ∈ l <-> i' ∈ l') by (intros i i' Hi; pose proof (bij_elem R i i' l l' HB Hi Hl) as H; split; intros Hx; [apply (bool_decide_eq_true_1 (i' ∈ l')); rewrite <- H|apply (bool_decide_eq_true_1 (i ∈ l)); rewrite H]; by apply bool_decide_eq_true_2).
  assert (Hdom : forall i, i ∈ l -> exists i', R i i') by (intros i [k Hk]%elem_of_list_lookup; pose proof (lrel_lookup _ _ _ k Hl) as H; rewrite Hk in H; inversion H; subst; eauto).
  assert (Hdom' : forall i', i' ∈ l' -> exists i, R i i') by (intros i' [k Hk]%elem_of_list_lookup; pose proof (lrel_lookup _ _ _ k Hl) as H; rewrite Hk in H; inversion H; subst; eauto).
  assert (Hrefs : forall n n', node_rel R n n' -> Forall (fun r => r ∉ l) (strong_refs n) <-> Forall (fun r => r ∉ l') (strong_refs n')).
  { intros n n' Hn. pose proof (refs_rel _ _ _ Hn) as H. induction H as [|x y m m' Hx _ IH]; [done|]. rewrite !Forall_cons, IH. by rewrite (Hin x y Hx). }
  assert (HD : can_drop h l <-> can_drop h' l').
  { split.
    - intros HC b n' Hb. destruct (decide (b ∈ l')) as [|Hnb]; [by left|]. right. destruct (decide (Exists (fun r => r ∈ l') (strong_refs n'))) as [Hex|Hne].
      + exfalso. apply Exists_exists in Hex as (r & Hr & Hrl). destruct (Hdom' r Hrl) as [r0 Hr0].
        assert (Hab : ~ ~ exists a, R a b) by (intros Hno; destruct (al_out' _ _ _ HA b n' Hb) with (r := r) as [Ho _]; [intros a Ha; apply Hno; eauto|by apply elem_of_list_In|by apply Ho in Hr0]).
        apply Hab. intros [a Ha]. pose proof (al_node _ _ _ HA a b Ha) as Hn. rewrite Hb in Hn. inversion Hn as [n ? HN E1|]; subst. symmetry in E1.
        destruct (HC a n E1) as [Hx|Hx]; [by apply (Hin a b Ha) in Hx|]. apply (Hrefs n n' HN) in Hx. rewrite Forall_forall in Hx. by apply (Hx r Hr).
      + apply Forall_forall. intros r Hr Hrl. apply Hne, Exists_exists. eauto.
    - intros HC a n Ha. destruct (decide (a ∈ l)) as [|Hna]; [by left|]. right. destruct (decide (Exists (fun r => r ∈ l) (strong_refs n))) as [Hex|Hne].
      + exfalso. apply Exists_exists in Hex as (r & Hr & Hrl). destruct (Hdom r Hrl) as [r0 Hr0].
        assert (Hab : ~ ~ exists b, R a b) by (intros Hno; destruct (al_out _ _ _ HA a n Ha) with (r := r) as [Ho _]; [intros b Hb; apply Hno; eauto|by apply elem_of_list_In|by apply Ho in Hr0]).
        apply Hab. intros [b Hb]. pose proof (al_node _ _ _ HA a b Hb) as Hn. rewrite Ha in Hn. inversion Hn as [? n' HN E1 E2|]; subst. symmetry in E2.
        destruct (HC b n' E2) as [Hx|Hx]; [by apply (Hin a b Hb) in Hx|]. apply (Hrefs n n' HN) in Hx. rewrite Forall_forall in Hx. by apply (Hx r Hr).
      + apply Forall_forall. intros r Hr Hrl. apply Hne, Exists_exists. eauto. }
  rewrite (bool_decide_ext _ _ HD). destruct (bool_decide (can_drop h' l')) eqn:Hc; cbn; [|split; [done|]; split; [apply grows_refl|done]].
  split; [|split; [|done]].
  - split; cbn; try apply HA.
    + intros a b Hab. rewrite !lookup_delete_all, (bool_decide_ext _ _ (Hin a b Hab)). destruct (bool_decide (b ∈ l')); [constructor|]. by apply HA.
    + intros a n. rewrite lookup_delete_all. destruct (bool_decide (a ∈ l)); [done|]. apply HA.
    + intros a n. rewrite lookup_delete_all. destruct (bool_decide (a ∈ l')); [done|]. apply HA.
    + intros a n. rewrite lookup_delete_all. destruct (bool_decide (a ∈ l)); [done|]. apply HA.
    + intros a n. rewrite lookup_delete_all. destruct (bool_decide (a ∈ l')); [done|]. apply HA.
  - split; cbn; [apply (gr_rel _ _ _ _ _ _ (grows_refl R h h'))| |].
    + intros a _ Ho. rewrite lookup_delete_all, bool_decide_eq_false_2; [done|]. intros Hx. destruct (Hdom a Hx) as [b Hb]. by apply Ho in Hb.
    + intros a _ Ho. rewrite lookup_delete_all, bool_decide_eq_false_2; [done|]. intros Hx. destruct (Hdom' a Hx) as [b Hb]. by apply Ho in Hb.
Qed.

(** ** The reader *)
Definition pres_rel {A} (RA : A -> A -> Prop) (r r' : pres A) : Prop :=
  match r, r' with
  | POk a, POk a' => RA a a'
  | PErr e, PErr e' => e = e'
  | PPanic p, PPanic p' => p = p'
  | PDiverge, PDiverge => True
  | _, _ => False
  end.
Definition psim {A} (RA : rel -> A -> A -> Prop) R (m m' : PM A) : Prop := forall h h', alike R h h' ->
  ((m h).2 = PDiverge /\ (m' h').2 = PDiverge) \/
  exists R1, alike R1 (m h).1 (m' h').1 /\ grows R h h' R1 (m h).1 (m' h').1 /\ pres_rel (RA R1) (m h).2 (m' h').2.
Lemma psim_bind {A B} (RA : rel -> A -> A -> Prop) (RB : rel -> B -> B -> Prop) R m m' (k k' : A -> PM B) :
  psim RA R m m' -> (forall R1 a a', sub R R1 -> bij R1 -> RA R1 a a' -> psim RB R1 (k a) (k' a')) -> psim RB R (pbind m k) (pbind m' k').
Proof.
  intros Hm Hk h h' HA. unfold pbind. destruct (Hm h h' HA) as [[D1 D2]|(R1 & HA1 & G1 & Hr)].
  - left. destruct (m h) as [h1 r], (m' h') as [h1' r']. cbn in D1, D2. by subst.
  - destruct (m h) as [h1 r], (m' h') as [h1' r']. cbn in HA1, G1, Hr.
    destruct r as [a| | |], r' as [a'| | |]; try done; cbn in Hr; try (right; exists R1; by split_and!).
    destruct (Hk R1 a a' (grows_sub _ _ _ _ _ _ G1) (alike_bij _ _ _ HA1) Hr h1 h1' HA1) as [D|(R2 & HA2 & G2 & Hr2)]; [by left|]. right. exists R2. split; [done|]. split; [by eapply grows_trans|done].
Qed.
Lemma psim_pure {A} (RA : rel -> A -> A -> Prop) R (r r' : pres A) : pres_rel (RA R) r r' -> psim RA R (fun h => (h, r)) (fun h => (h, r')).
Proof. intros H h h' HA. right. exists R. split; [done|]. split; [apply grows_refl|done]. Qed.
Lemma psim_ret {A} (RA : rel -> A -> A -> Prop) R a a' : RA R a a' -> psim RA R (pret a) (pret a').
Proof. intros H. by apply (psim_pure RA R (POk a) (POk a')). Qed.
Lemma psim_fail {A} (RA : rel -> A -> A -> Prop) R e : psim RA R (pfail e) (pfail e).
Proof. by apply (psim_pure RA R (PErr e) (PErr e)). Qed.
Lemma psim_dom {A} (RA : rel -> A -> A -> Prop) R m m' : msim RA R m m' -> psim RA R (pdom m) (pdom m').
Proof.
  intros Hm h h' HA. unfold pdom. destruct (Hm h h' HA) as [[D1 D2]|(R1 & HA1 & G1 & Hr)].
  - left. destruct (m h) as [h1 r], (m' h') as [h1' r']. cbn in D1, D2. by subst.
  - right. exists R1. destruct (m h) as [h1 r], (m' h') as [h1' r']. cbn in HA1, G1, Hr. destruct r, r'; try done; cbn in Hr; by subst.
Qed.
Lemma psim_dom_unwrap {A} (RA : rel -> A -> A -> Prop) R m m' : msim RA R m m' -> psim RA R (pdom_unwrap m) (pdom_unwrap m').
Proof. intros H. apply psim_dom. by apply msim_to_panic. Qed.
Lemma psim_decode R o : psim same R (pdecode o) (pdecode o).
Proof. destruct o; [by apply psim_ret|apply psim_fail]. Qed.
Lemma psim_unwrap {A} R (o : option A) : psim same R (punwrap o) (punwrap o).
Proof. destruct o as [a|]; [by apply (psim_pure same R (POk a) (POk a))|by apply (psim_pure same R (PPanic PUnwrap) (PPanic PUnwrap))]. Qed.
Ltac pb := eapply psim_bind.
Lemma p_attributes E R d d' e e' l : R d d' -> R e e' -> psim same R (handle_attributes E d e l) (handle_attributes E d' e' l).
Proof.
  revert R. induction l as [|[n v| |] l IH]; intros R Hd He; cbn; [by apply psim_ret| |by apply (psim_pure same R (PPanic PUnwrap) (PPanic PUnwrap))|apply psim_fail].
  pb; [apply psim_dom; by apply m_create_attribute_with|]. nx a a' Ha. pb; [apply psim_dom; by apply m_set_attribute_node|]. nz. by apply IH.
Qed.
Lemma p_start E R d d' p p' n l : R d d' -> R p p' -> psim nodes_ R (handle_start E d p n l) (handle_start E d' p' n l).
Proof.
  intros Hd Hp. unfold handle_start. pb; [apply psim_decode|]. nx s ? <-. pb; [apply psim_dom_unwrap; by apply m_create_element|]. nx e e' He.
  pb; [apply psim_dom; by apply m_append_child|]. nx f f' Hf. pb; [by apply p_attributes|]. nz. by apply psim_ret.
Qed.
Lemma p_comment R d d' p p' t : R d d' -> R p p' -> psim nodes_ R (handle_comment d p t) (handle_comment d' p' t).
Proof. intros Hd Hp. unfold handle_comment. pb; [apply psim_decode|]. nx s ? <-. pb; [apply psim_dom; by apply m_create_comment|]. nx e e' He. apply psim_dom. by apply m_append_child. Qed.
Lemma p_text R d d' p p' t : R d d' -> R p p' -> psim nodes_ R (handle_text d p t) (handle_text d' p' t).
Proof. intros Hd Hp. unfold handle_text. pb; [apply psim_decode|]. nx s ? <-. pb; [apply psim_dom; by apply m_create_text|]. nx e e' He. apply psim_dom. by apply m_append_child. Qed.
Lemma p_cdata R d d' p p' t : R d d' -> R p p' -> psim nodes_ R (handle_cdata d p t) (handle_cdata d' p' t).
Proof. intros Hd Hp. unfold handle_cdata. pb; [apply psim_decode|]. nx s ? <-. pb; [apply psim_dom_unwrap; by apply m_create_cdata|]. nx e e' He. apply psim_dom. by apply m_append_child. Qed.
Lemma p_pi R d d' p p' t : R d d' -> R p p' -> psim nodes_ R (handle_pi d p t) (handle_pi d' p' t).
Proof.
  intros Hd Hp. unfold handle_pi. pb; [apply psim_decode|]. nx s ? <-. destruct (pi_parts s) as [tg dt]. pb; [apply psim_dom_unwrap; by apply m_create_pi|]. nx e e' He. apply psim_dom. by apply m_append_child.
Qed.
Lemma p_make_decl R v e s : psim same R (make_decl v e s) (make_decl v e s).
Proof.
  unfold make_decl. pb; [apply psim_unwrap|]. nx x ? <-. pb; [instantiate (1 := same); destruct (unquote x) as [y| |y|]|].
  - by apply (psim_pure same _ (POk y) (POk y)).
  - by apply (psim_pure same _ (PErr PEInvalidCharacter) (PErr PEInvalidCharacter)).
  - by apply (psim_pure same _ (PPanic y) (PPanic y)).
  - by apply (psim_pure same _ PDiverge PDiverge).
  - nx y ? <-. pb; [instantiate (1 := same); destruct e as [o|]; [|by apply psim_ret]; pb; [apply psim_unwrap|]; nx z ? <-; by apply psim_ret|]. nx z ? <-.
    pb; [instantiate (1 := same); destruct s as [o|]; [|by apply psim_ret]; pb; [apply psim_unwrap|]; nx w ? <-; by apply psim_ret|]. nx w ? <-. by apply psim_ret.
Qed.
Lemma p_decl R d d' v e s : R d d' -> psim same R (handle_decl d v e s) (handle_decl d' v e s).
Proof.
  intros Hd. unfold handle_decl. pb; [apply psim_dom, (msim_lift same); intros; by eapply s_decl|]. nx o ? <-. destruct o; [apply psim_fail|].
  pb; [apply p_make_decl|]. nx r ? <-. pb; [apply psim_unwrap|]. nx x ? <-. pb; [apply psim_dom, msim_const|]. nx y ? <-. apply psim_dom. by apply m_decl.
Qed.
(** A step of the reader that also returns the events left. *)
Definition qsim (R : rel) (h h' : heap) (x x' : heap * list event * pres id) : Prop :=
  (x.2 = PDiverge /\ x'.2 = PDiverge) \/
  exists R1, alike R1 x.1.1 x'.1.1 /\ grows R h h' R1 x.1.1 x'.1.1 /\ x.1.2 = x'.1.2 /\ pres_rel R1 x.2 x'.2.
Lemma p_step {A} (RA : rel -> A -> A -> Prop) R h h' (m m' : PM A) rest (k k' : A -> heap -> heap * list event * pres id) : psim RA R m m' -> alike R h h' ->
  (forall R1 a a' h1 h1', sub R R1 -> RA R1 a a' -> alike R1 h1 h1' -> qsim R1 h1 h1' (k a h1) (k' a' h1')) ->
  qsim R h h' (match m h with (h1, POk a) => k a h1 | (h1, PErr e) => (h1, rest, PErr e) | (h1, PPanic p) => (h1, rest, PPanic p) | (h1, PDiverge) => (h1, rest, PDiverge) end)
    (match m' h' with (h1, POk a) => k' a h1 | (h1, PErr e) => (h1, rest, PErr e) | (h1, PPanic p) => (h1, rest, PPanic p) | (h1, PDiverge) => (h1, rest, PDiverge) end).
Proof.
  intros Hm HA Hk. destruct (Hm h h' HA) as [[D1 D2]|(R1 & HA1 & G1 & Hr)].
  - left. destruct (m h) as [h1 r], (m' h') as [h1' r']. cbn in D1, D2. by subst.
  - destruct (m h) as [h1 r], (m' h') as [h1' r']. cbn in HA1, G1, Hr.
    destruct r as [a| | |], r' as [a'| | |]; try done; cbn in Hr; try (right; exists R1; split_and!; done).
    destruct (Hk R1 a a' h1 h1' (grows_sub _ _ _ _ _ _ G1) Hr HA1) as [D|(R2 & HA2 & G2 & Hr2 & Hr3)]; [by left|]. right. exists R2. split; [done|]. split; [by eapply grows_trans|done].
Qed.
Lemma p_element fuel E : forall R d d' p p' evs h h', R d d' -> R p p' -> alike R h h' -> qsim R h h' (element fuel E d p evs h) (element fuel E d' p' evs h').
Proof.
  induction fuel as [|k IH]; intros R d d' p p' evs h h' Hd Hp HA; [by left|].
  assert (Hend : forall rest r r', pres_rel R r r' -> qsim R h h' (h, rest, r) (h', rest, r')) by (intros; right; exists R; split_and!; try done; apply grows_refl).
  assert (Hnext : forall A (RA : rel -> A -> A -> Prop) (m m' : PM A) rest, psim RA R m m' -> qsim R h h'
     (match m h with (h1, POk _) => element k E d p rest h1 | (h1, PErr e) => (h1, rest, PErr e) | (h1, PPanic p) => (h1, rest, PPanic p) | (h1, PDiverge) => (h1, rest, PDiverge) end)
     (match m' h' with (h1, POk _) => element k E d' p' rest h1 | (h1, PErr e) => (h1, rest, PErr e) | (h1, PPanic p) => (h1, rest, PPanic p) | (h1, PDiverge) => (h1, rest, PDiverge) end)).
  { intros A RA m m' rest Hm. apply (p_step RA R h h' m m' rest (fun _ => element k E d p rest) (fun _ => element k E d' p' rest) Hm HA). intros R1 a a' h1 h1' HS _ HA1. apply IH; [by apply HS|by apply HS|done]. }
  destruct evs as [|ev rest]; [by apply Hend|]. destruct ev as [v e s|n l|n l| |t|t|t|t| |]; cbn [element]; try (by apply Hend).
  - apply (p_step nodes_ R h h' (handle_start E d p n l) (handle_start E d' p' n l) rest
      (fun el h1 => match element k E d el rest h1 with (h2, rest', POk _) => element k E d p rest' h2 | r => r end)
      (fun el h1 => match element k E d' el rest h1 with (h2, rest', POk _) => element k E d' p' rest' h2 | r => r end)); [by apply p_start|done|].
    intros R1 a a' h1 h1' HS Ha HA1. destruct (IH R1 d d' a a' rest h1 h1' (HS _ _ Hd) Ha HA1) as [[D1 D2]|(R2 & HA2 & G2 & Hrest & Hr)].
    + left. destruct (element k E d a rest h1) as [[h2 rs] r], (element k E d' a' rest h1') as [[h2' rs'] r']. cbn in D1, D2. by subst.
    + destruct (element k E d a rest h1) as [[h2 rs] r], (element k E d' a' rest h1') as [[h2' rs'] r']. cbn in HA2, G2, Hrest, Hr. subst rs'.
      destruct r as [x| | |], r' as [x'| | |]; try done; cbn in Hr; try (right; exists R2; split_and!; done). pose proof (grows_sub _ _ _ _ _ _ G2) as HS2.
      destruct (IH R2 d d' p p' rs h2 h2') as [D|(R3 & HA3 & G3 & Hr2 & Hr3)]; [by apply HS2, HS|by apply HS2, HS|done|by left|]. right. exists R3. split; [done|]. split; [by eapply grows_trans|done].
  - eapply Hnext. by apply p_start.
  - eapply Hnext. by apply p_comment.
  - eapply Hnext. by apply p_pi.
  - eapply Hnext. by apply p_text.
  - eapply Hnext. by apply p_cdata.
Qed.
Definition dsim (R : rel) (h h' : heap) (x x' : heap * pres id) : Prop :=
  (x.2 = PDiverge /\ x'.2 = PDiverge) \/ exists R1, alike R1 x.1 x'.1 /\ grows R h h' R1 x.1 x'.1 /\ pres_rel R1 x.2 x'.2.
Lemma p_loop fuel E : forall R d d' evs h h', R d d' -> alike R h h' -> dsim R h h' (document_loop fuel E d evs h) (document_loop fuel E d' evs h').
Proof.
  induction fuel as [|k IH]; intros R d d' evs h h' Hd HA; [by left|].
  assert (Hend : forall r r', pres_rel R r r' -> dsim R h h' (h, r) (h', r')) by (intros; right; exists R; split_and!; try done; apply grows_refl).
  assert (Hnext : forall A (RA : rel -> A -> A -> Prop) (m m' : PM A) rest, psim RA R m m' -> dsim R h h'
     (match m h with (h1, POk _) => document_loop k E d rest h1 | (h1, PErr e) => (h1, PErr e) | (h1, PPanic p) => (h1, PPanic p) | (h1, PDiverge) => (h1, PDiverge) end)
     (match m' h' with (h1, POk _) => document_loop k E d' rest h1 | (h1, PErr e) => (h1, PErr e) | (h1, PPanic p) => (h1, PPanic p) | (h1, PDiverge) => (h1, PDiverge) end)).
  { intros A RA m m' rest Hm. destruct (Hm h h' HA) as [[D1 D2]|(R1 & HA1 & G1 & Hr)].
    - left. destruct (m h) as [h1 r], (m' h') as [h1' r']. cbn in D1, D2. by subst.
    - destruct (m h) as [h1 r], (m' h') as [h1' r']. cbn in HA1, G1, Hr. destruct r as [a| | |], r' as [a'| | |]; try done; cbn in Hr; try (right; exists R1; split_and!; done).
      destruct (IH R1 d d' rest h1 h1' (grows_sub _ _ _ _ _ _ G1 _ _ Hd) HA1) as [D|(R2 & HA2 & G2 & Hr2)]; [by left|]. right. exists R2. split; [done|]. split; [by eapply grows_trans|done]. }
  destruct evs as [|ev rest]; [by apply Hend|]. destruct ev as [v e s|n l|n l| |t|t|t|t| |]; cbn [document_loop]; try (by apply Hend).
  - eapply Hnext. by apply p_decl.
  - destruct (p_start E R d d' d d' n l Hd Hd h h' HA) as [[D1 D2]|(R1 & HA1 & G1 & Hr)].
    + left. destruct (handle_start E d d n l h) as [h1 r], (handle_start E d' d' n l h') as [h1' r']. cbn in D1, D2. by subst.
    + destruct (handle_start E d d n l h) as [h1 r], (handle_start E d' d' n l h') as [h1' r']. cbn in HA1, G1, Hr. destruct r as [a| | |], r' as [a'| | |]; try done; cbn in Hr; try (right; exists R1; split_and!; done).
      pose proof (grows_sub _ _ _ _ _ _ G1) as HS. destruct (p_element (S (length rest)) E R1 d d' a a' rest h1 h1' (HS _ _ Hd) Hr HA1) as [[D1 D2]|(R2 & HA2 & G2 & Hrest & Hr2)].
      * left. destruct (element (S (length rest)) E d a rest h1) as [[h2 rs] r], (element (S (length rest)) E d' a' rest h1') as [[h2' rs'] r']. cbn in D1, D2. by subst.
      * destruct (element (S (length rest)) E d a rest h1) as [[h2 rs] r], (element (S (length rest)) E d' a' rest h1') as [[h2' rs'] r']. cbn in HA2, G2, Hrest, Hr2. subst rs'.
        pose proof (grows_trans _ _ _ _ _ _ _ _ _ G1 G2) as G12. pose proof (grows_sub _ _ _ _ _ _ G12) as HS2.
        assert (HL : dsim R h h' (document_loop k E d rs h2) (document_loop k E d' rs h2')) by (destruct (IH R2 d d' rs h2 h2' (HS2 _ _ Hd) HA2) as [D|(R3 & HA3 & G3 & Hr3)]; [by left|]; right; exists R3; split; [done|]; split; [by eapply grows_trans|done]).
        destruct r as [x| | |], r' as [x'| | |]; try done; cbn in Hr2; right; exists R2; split_and!; done.
  - eapply Hnext. by apply p_start.
  - by apply IH.
  - eapply Hnext. by apply p_comment.
  - eapply Hnext. by apply p_pi.
Qed.
Lemma p_read E R evs : psim nodes_ R (read_events E evs) (read_events E evs).
Proof.
  intros h h' HA. unfold read_events. destruct (psim_dom_unwrap nodes_ R _ _ (m_create_document R None None None None (set_add_namespaces options_new) (None_Forall2 _)) h h' HA) as [[D1 D2]|(R1 & HA1 & G1 & Hr)];
    change (create_document_with_options None None None (set_add_namespaces options_new)) with (create_document None None None) in *.
  - left. destruct (pdom_unwrap (create_document None None None) h) as [h1 r], (pdom_unwrap (create_document None None None) h') as [h1' r']. cbn in D1, D2. by subst.
  - destruct (pdom_unwrap (create_document None None None) h) as [h1 r], (pdom_unwrap (create_document None None None) h') as [h1' r']. cbn in HA1, G1, Hr.
    destruct r as [a| | |], r' as [a'| | |]; try done; cbn in Hr; try (right; exists R1; split_and!; done).
    destruct (p_loop (S (length evs)) E R1 a a' evs h1 h1' Hr HA1) as [D|(R2 & HA2 & G2 & Hr2)]; [by left|]. right. exists R2. split; [done|]. split; [by eapply grows_trans|done].
Qed.
Lemma m_read E R evs : msim orel R (read_xml_op E evs) (read_xml_op E evs).
Proof.
  intros h h' HA. unfold read_xml_op. destruct (p_read E R evs h h' HA) as [[D1 D2]|(R1 & HA1 & G1 & Hr)].
  - left. destruct (read_events E evs h) as [h1 r], (read_events E evs h') as [h1' r']. cbn in D1, D2. by subst.
  - right. exists R1. destruct (read_events E evs h) as [h1 r], (read_events E evs h') as [h1' r']. cbn in HA1, G1, Hr.
    destruct r as [a|e|p|], r' as [a'|e'|p'|]; try done; cbn in Hr; try (rewrite <- Hr); try (destruct e); split_and!; try done; by constructor.
Qed.

(** ** Every call *)
Lemma m_out R (m m' : M id) : msim nodes_ R m m' -> msim orel R (out Some m) (out Some m').
Proof. intros H. unfold out. mb; [exact H|]. nx x x' Hx. apply msim_ret. by constructor. Qed.
Lemma m_noid {A} R (m m' : M A) : msim same R m m' -> msim orel R (out no_id m) (out no_id m').
Proof. intros H. unfold out. mb; [exact H|]. nz. apply msim_ret. constructor. Qed.
Theorem sim_exec E (HE : ordered_by_keys E) R f o : (forall i, In i (given o) -> R i (f i)) -> msim orel R (exec E o) (exec E (rename f o)).
Proof.
  intros Hg. destruct o; cbn [exec rename]; cbn [given] in Hg;
    try (apply m_noid; first
      [ apply m_normalize | apply msim_modify; [|intros; by apply nr_set_value] | apply m_append_data | apply m_insert_data | apply m_delete_data | apply m_replace_data
      | apply m_attr_set | apply m_attr_unset | apply m_set_attribute | apply m_set_attribute_ns | apply (m_remove_attribute _ HE) | apply (m_remove_attribute_ns _ HE) | apply m_decl ]; apply Hg; cbn; tauto);
    try (apply m_out; first
      [ apply m_create_element | apply m_create_element_ns | apply m_create_attribute | apply m_create_attribute_with | apply m_create_attribute_ns | apply m_create_text | apply m_create_cdata | apply m_create_comment
      | apply m_create_pi | apply m_create_fragment | apply m_create_entity_reference | apply m_create_notation | apply m_create_entity | apply m_create_internal_entity | apply m_clone | apply m_split
      | apply m_append_child | apply m_replace_child | apply m_remove_child | apply m_set_attribute_node | apply m_remove_attribute_node ]; apply Hg; cbn; tauto).
  - apply m_out, m_create_document. destruct dt as [t|]; cbn; constructor. apply Hg. by left.
  - apply m_out, m_create_document_type.
  - apply m_read.
  - apply m_out, m_insert_before; [apply Hg; destruct r; cbn; tauto|apply Hg; destruct r; cbn; tauto|]. destruct r as [r|]; cbn; constructor. apply Hg. cbn. tauto.
  - apply m_noid, m_drop. clear -Hg. induction l as [|x l IH]; cbn; constructor; [apply Hg; by left|]. apply IH. intros i Hi. apply Hg. by right.
Qed.
