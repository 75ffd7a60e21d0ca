(** * C83: generations of printed and read documents *)
From Coq Require Import Lia.
From Verif Require Import SpecGen ProofText ProofShow ProofAttr ProofInv ProofTree ProofWalk ProofParse PropParse PropShow PropRound.

Lemma reread_differ E c c' : reread E c c' -> Forall attrs_differ c -> Forall attrs_differ c'.
Proof.
  induction 1 as [|n l l' kids kids' r r' Hl Hk IHk Hr IHr|v r r' Hv Hr IH|v t r r' Hv Ht Hr IH|v r r' Hr IH|v r r' Hr IH|v t dd r r' Hna Hpt Hr IH]; intros Hd;
    [constructor|inversion Hd as [|? ? Hx Hd']; subst..].
  - inversion Hx as [? ? ? H1 H2| | | |]; subst. constructor; [|auto]. constructor; [|auto]. replace (map fst l') with (map fst l); [done|].
    clear -Hl. induction Hl as [|p q l l' [H _] _ IH]; cbn; [done|]. by rewrite H, IH.
  - auto.
  - constructor; [constructor|auto].
  - constructor; [constructor|auto].
  - constructor; [constructor|auto].
  - constructor; [constructor|auto].
Qed.
Lemma rereads_same E n c c2 : rereads E n c c2 -> forall its, Forall2 same_item its c -> exists its2, rereads E n its its2 /\ Forall2 same_item its2 c2.
Proof.
  induction 1 as [c|n c c1 c2 Hr Hnd _ IH]; intros its Hs; [exists its; split; [constructor|done]|].
  destruct (reread_same _ _ _ Hr _ Hs) as (its1 & H1 & H2). destruct (IH _ H2) as (its2 & H3 & H4). exists its2. split; [|done].
  eapply rrs_more; [exact H1| |exact H3]. by rewrite (same_ids_all _ _ H2).
Qed.
Lemma same_trans x : forall y z, same_item x y -> same_item y z -> same_item x z.
Proof.
  induction x as [n l kids IH|v|v|v|v] using item_ind'; intros y z H1 H2; inversion H1 as [? ? l1 ? k1 Hl Hk| | | |]; subst; inversion H2 as [? ? l2 ? k2 Hl2 Hk2| | | |]; subst; constructor; [by etrans|].
  clear -IH Hk Hk2. revert k2 Hk2. induction Hk; intros k2 Hk2; inversion Hk2; subst; [constructor|]. inversion IH; subst. constructor; eauto.
Qed.
Lemma same_all_trans a b c : Forall2 same_item a b -> Forall2 same_item b c -> Forall2 same_item a c.
Proof. intros H. revert c. induction H; intros c Hc; inversion Hc; subst; constructor; eauto using same_trans. Qed.

(** ** Round after round, the content changes as [reread] says *)
Theorem C83_rounds : forall E n h d D xs c, reachable h -> wf_env E -> stands_for E h d (XmlDocument D None xs) -> no_cycle_below h d -> Forall plain xs -> decl_valid D ->
  Forall attrs_differ (content xs) -> rereads E n (content xs) c ->
  exists h' d' xs', rounds E n h d h' d' /\ reachable h' /\ stands_for E h' d' (XmlDocument D None xs') /\ no_cycle_below h' d' /\ Forall plain xs' /\ Forall2 same_item (content xs') c.
Proof.
  intros E n. induction n as [|n IH]; intros h d D xs c Hr W Hx Hac Hp HD Hdf Hrr; inversion Hrr as [|? ? c1 ? Hrr1 Hnd Hrr2]; subst.
  - exists h, d, xs. split; [constructor|]. split_and!; try done. clear. induction (content xs) as [|x l IH]; constructor; [|done].
    induction x as [m l' kids IHk|v|v|v|v] using item_ind'; constructor; [done|]. induction IHk; constructor; done.
  - destruct (C51_prints E h d _ Hr W Hac Hx) as (s & Hs & _).
    destruct (C74_reread E E h h d D xs c1 s) as (evs & h1 & d1 & xs1 & H1 & H2 & _ & H4 & H5 & H6 & H7); try done.
    assert (Hr1 : reachable h1) by (by eapply read_reachable).
    destruct (rereads_same _ _ _ _ Hrr2 _ H7) as (c' & Hc1 & Hc2).
    assert (Hdf1 : Forall attrs_differ (content xs1)) by (eapply Forall2_back; [exact same_differ|exact H7|by eapply reread_differ]).
    destruct (IH h1 d1 D xs1 c' Hr1 W H4 H5 H6 HD Hdf1 Hc1) as (h2 & d2 & xs2 & R & G1 & G2 & G3 & G4 & G5).
    exists h2, d2, xs2. split; [eapply rs_more; [|exact R]; exists s, evs; done|]. split_and!; try done. by eapply same_all_trans.
Qed.
Print Assumptions C83_rounds.

(** ** Without references, everything but the CDATA sections settles at once *)
Inductive steady (E : env) : item -> Prop :=
| sy_element n l kids : Forall (fun p => denotes E p.2 p.2) l -> Forall (steady E) kids -> steady E (Element n l kids)
| sy_text v : v <> [] -> edges_gone v v -> steady E (Text v)
| sy_comment v : steady E (Comment v)
| sy_cdata v : steady E (CData v)
| sy_pi s t d : ~ In 38%N s -> pi_text s t d -> s = pi_body t d -> steady E (Pi s).

Lemma expands_only E s t : (forall c, In c s -> c <> 38%N /\ c <> 37%N) -> expands E s t -> t = map white_to_space s.
Proof.
  intros Hs H. induction H as [|c s t Hw _ IH|s ds r t (-> & _) _ _ _ _|s ds r t (-> & _) _ _ _|c s t Hw _ _ IH]; cbn.
  - done.
  - rewrite IH by (intros; apply Hs; by right). unfold white_to_space at 2. by rewrite bool_decide_true.
  - exfalso. destruct (Hs 38%N) as [? _]; [by left|done].
  - exfalso. destruct (Hs 38%N) as [? _]; [by left|done].
  - rewrite IH by (intros; apply Hs; by right). unfold white_to_space at 2. by rewrite bool_decide_false.
Qed.
Lemma denotes_plain E v w : ~ In 38%N v -> ~ In 37%N v -> denotes E v w -> plain_value w.
Proof.
  intros H1 H2 (l & t0 & Hl & He & a & b & -> & _ & _ & Ht1 & Ht2). split; [|done].
  assert (Hlc : forall c, In c l -> c <> 38%N /\ c <> 37%N).
  { intros c Hc. destruct (line_ends_in _ _ _ Hl Hc) as [->|Hv]; [done|]. split; intros ->; done. }
  apply expands_only in He; [|done]. apply Forall_forall. intros c Hc%elem_of_list_In.
  assert (Hin : In c (map white_to_space l)) by (rewrite <- He, !in_app_iff; tauto). apply in_map_iff in Hin as (c0 & <- & Hc0).
  specialize (Hlc c0 Hc0). apply line_ends_no in Hl. unfold no_line_end_but_lf in Hl. rewrite Forall_forall in Hl. rewrite <- elem_of_list_In in Hc0. specialize (Hl c0 Hc0).
  unfold white_to_space. case_bool_decide as Hw; [done|]. unfold white in Hw. tauto.
Qed.
Lemma pi_again s t d : pi_text s t d -> pi_text (pi_body t d) t d.
Proof.
  intros [t' Ht|t' s' Ht _|t' s' d' Ht (a & b & _ & _ & _ & H1 & H2) Hne]; cbn; try by constructor. apply pt_data; [done| |done].
  exists [], []. by rewrite app_nil_r.
Qed.
Lemma edges_again v t : edges_gone v t -> edges_gone t t.
Proof. intros (a & b & _ & _ & _ & H1 & H2). exists [], []. by rewrite app_nil_r. Qed.
Lemma simple_steady E c c' : wf_env E -> reread E c c' -> Forall simple c -> Forall (steady E) c'.
Proof.
  intros W. induction 1 as [|n l l' kids kids' r r' Hl Hk IHk Hr IHr|v r r' Hv Hr IH|v t r r' Hv Ht Hr IH|v r r' Hr IH|v r r' Hr IH|v t dd r r' Hna Hpt Hr IH]; intros Hd;
    [constructor|inversion Hd as [|? ? Hx Hd']; subst..].
  - inversion Hx as [? ? ? H1 H2| | | |]; subst. constructor; [|auto]. constructor; [|auto].
    clear -W Hl H1. induction Hl as [|p q l l' [_ H] _ IH]; [constructor|]. inversion H1 as [|? ? [A B] C]; subst. constructor; [apply plain_value_denotes; [done|by eapply denotes_plain]|auto].
  - auto.
  - constructor; [|auto]. constructor; [done|by eapply edges_again].
  - constructor; [constructor|auto].
  - constructor; [constructor|auto].
  - constructor; [|auto]. econstructor; [intros Hin; apply Hna; by apply (pi_text_parts _ _ _ Hpt)|by eapply pi_again|done].
Qed.
Lemma steady_once E c : Forall (steady E) c -> reread E c (map (padded 1) c).
Proof.
  assert (H : forall x, steady E x -> forall r r', reread E r r' -> reread E (x :: r) (padded 1 x :: r')).
  { intros x. induction x as [n l kids IH|v|v|v|v] using item_ind'; intros Hs r r' Hr; inversion Hs as [? ? ? Hl Hk|? Hne He| | |? t dd Hna Hpt Hsp]; subst; cbn [padded].
    - apply rr_element; [|clear -IH Hk; induction kids as [|y kids IHk]; [constructor|]; inversion IH; subst; inversion Hk; subst; cbn; auto|done].
      clear -Hl. induction Hl; constructor; [|done]. done.
    - by apply rr_text.
    - by constructor.
    - by apply (rr_cdata E v).
    - by apply rr_pi. }
  induction 1; cbn; [constructor|auto].
Qed.
Lemma padded_steady E n x : steady E x -> steady E (padded n x).
Proof.
  induction x as [m l kids IH|v|v|v|v] using item_ind'; intros Hs; inversion Hs as [? ? ? Hl Hk| | | |]; subst; cbn; try done; [|constructor]. constructor; [done|].
  clear -IH Hk. induction IH; cbn; [constructor|]. inversion Hk; subst. constructor; auto.
Qed.
Lemma padded_ids n x : ids (padded n x) = ids x.
Proof. induction x as [m l kids IH|v|v|v|v] using item_ind'; cbn; try done. f_equal. induction IH as [|y k Hy _ IHk]; cbn; [done|]. by rewrite Hy, IHk. Qed.
Lemma padded_ids_all n l : flat_map ids (map (padded n) l) = flat_map ids l.
Proof. induction l as [|x l IH]; cbn; [done|]. by rewrite padded_ids, IH. Qed.
Lemma repeat_snoc {A} (a : A) n : repeat a n ++ [a] = a :: repeat a n.
Proof. induction n as [|n IH]; cbn; [done|]. by rewrite IH. Qed.
Lemma padded_more n x : padded n (padded 1 x) = padded (S n) x.
Proof.
  induction x as [m l kids IH|v|v|v|v] using item_ind'; cbn [padded]; try done.
  - f_equal. rewrite map_map. induction IH as [|y k Hy _ IHk]; cbn; [done|]. by rewrite Hy, IHk.
  - f_equal. change (repeat 32%N (S n)) with (32%N :: repeat 32%N n). change (repeat 32%N 1) with [32%N]. rewrite <- (repeat_snoc 32%N n) at 1. rewrite <- !app_assoc. done.
Qed.
Lemma padded_none x : padded 0 x = x.
Proof. induction x as [m l kids IH|v|v|v|v] using item_ind'; cbn [padded repeat app]; try done; [|by rewrite app_nil_r]. f_equal. induction IH as [|y k Hy _ IHk]; cbn; [done|]. by rewrite Hy, IHk. Qed.
Lemma steady_rereads E n : forall c, Forall (steady E) c -> NoDup (flat_map ids c) -> rereads E n c (map (padded n) c).
Proof.
  induction n as [|n IH]; intros c Hc Hnd.
  - replace (map (padded 0) c) with c; [constructor|]. induction c as [|x c IHc]; cbn; [done|]. inversion Hc; subst. rewrite padded_none. cbn in Hnd. f_equal. apply IHc; [done|]. by apply NoDup_app in Hnd as (_ & _ & ?).
  - eapply rrs_more; [by apply steady_once|by rewrite padded_ids_all|]. replace (map (padded (S n)) c) with (map (padded n) (map (padded 1) c)).
    + apply IH; [|by rewrite padded_ids_all]. apply Forall_forall. intros y Hy. apply elem_of_list_In, in_map_iff in Hy as (x & <- & Hx). apply padded_steady. rewrite Forall_forall in Hc. apply Hc. by apply elem_of_list_In.
    + rewrite map_map. apply map_ext. apply padded_more.
Qed.
(** After the first round only the CDATA sections change: each gains a space at both ends every time. *)
Theorem C83_settles : forall E h d D xs c, reachable h -> wf_env E -> stands_for E h d (XmlDocument D None xs) -> no_cycle_below h d -> Forall plain xs -> decl_valid D ->
  Forall attrs_differ (content xs) -> Forall simple (content xs) -> reread E (content xs) c -> NoDup (flat_map ids c) ->
  forall n, exists h' d' xs', rounds E (S n) h d h' d' /\ stands_for E h' d' (XmlDocument D None xs') /\ Forall2 same_item (content xs') (map (padded n) c).
Proof.
  intros E h d D xs c Hr W Hx Hac Hp HD Hdf Hsi Hrr Hnd n.
  destruct (C83_rounds E (S n) h d D xs (map (padded n) c)) as (h' & d' & xs' & H1 & _ & H2 & _ & _ & H3); try done; [|eauto 8].
  eapply rrs_more; [done|done|]. apply steady_rereads; [|done]. by eapply simple_steady.
Qed.
Print Assumptions C83_settles.
(** Without CDATA sections the content stays as it is after the first round. *)
Theorem C83_stable : forall E h d D xs c, reachable h -> wf_env E -> stands_for E h d (XmlDocument D None xs) -> no_cycle_below h d -> Forall plain xs -> decl_valid D ->
  Forall attrs_differ (content xs) -> Forall simple (content xs) -> Forall (fun x => ~ has_cdata x) (content xs) -> reread E (content xs) c -> NoDup (flat_map ids c) ->
  forall n, exists h' d' xs', rounds E (S n) h d h' d' /\ stands_for E h' d' (XmlDocument D None xs') /\ Forall2 same_item (content xs') c.
Proof.
  intros E h d D xs c Hr W Hx Hac Hp HD Hdf Hsi Hno Hrr Hnd n. destruct (C83_settles E h d D xs c) with (n := n) as (h' & d' & xs' & H1 & H2 & H3); try done.
  exists h', d', xs'. split_and!; try done. replace (map (padded n) c) with c in H3; [done|]. clear -Hrr Hno.
  assert (Hc : Forall (fun x => ~ has_cdata x) c).
  { induction Hrr as [|m l l' kids kids' r r' Hl Hk IHk Hr IHr|v r r' Hv Hr IH|v t r r' Hv Ht Hr IH|v r r' Hr IH|v r r' Hr IH|v t dd r r' Hna Hpt Hr IH];
      [constructor|inversion Hno as [|? ? Hx Hno']; subst..]; auto.
    - constructor; [|auto]. intros Hh. inversion Hh as [|? ? ? Hex]; subst. assert (Hk0 : Forall (fun x => ~ has_cdata x) kids).
      { apply Forall_forall. intros y Hy Hy'. apply Hx. constructor. apply Exists_exists. eauto. }
      specialize (IHk Hk0). apply Exists_exists in Hex as (y & Hy & Hy'). rewrite Forall_forall in IHk. by apply (IHk y).
    - constructor; [|auto]. intros Hh. inversion Hh.
    - exfalso. apply Hx. constructor.
    - constructor; [|auto]. intros Hh. inversion Hh. }
  assert (G : forall x, ~ has_cdata x -> padded n x = x).
  { intros x. induction x as [m l kids IH|v|v|v|v] using item_ind'; intros Hx; cbn; try done; [|exfalso; apply Hx; constructor]. f_equal.
    assert (Hk0 : Forall (fun x => ~ has_cdata x) kids).
    { apply Forall_forall. intros y Hy Hy'. apply Hx. constructor. apply Exists_exists. eauto. }
    clear Hx. induction IH as [|y k Hy _ IHk]; cbn; [done|]. inversion Hk0; subst. f_equal; auto. }
  clear Hrr Hno. induction Hc; cbn; [done|]. f_equal; [symmetry; auto|done].
Qed.
Print Assumptions C83_stable.

(** ** In general the content settles in the end *)
Definition odd (c : N) : bool := bool_decide (c = 9 \/ c = 10 \/ c = 13 \/ c = 0x85 \/ c = 0x2028)%N.
Fixpoint weight (v : str) : nat := match v with [] => 0%nat | c :: r => ((if odd c then 2 else 1) + weight r)%nat end.
Lemma weight_app a b : weight (a ++ b) = (weight a + weight b)%nat.
Proof. induction a as [|c a IH]; cbn; [done|]. rewrite IH. lia. Qed.
Lemma weight_length v : (length v <= weight v <= 2 * length v)%nat.
Proof. induction v as [|c v IH]; cbn [weight length]; [lia|]. destruct (odd c); lia. Qed.
Lemma weight_line_ends v l : line_ends_normalised v l -> (weight l <= weight v)%nat /\ (l = v \/ In 10%N l).
Proof.
  induction 1 as [|s t _ [IH1 IH2]|s t _ [IH1 IH2]|s t _ _ [IH1 IH2]|s t _ [IH1 IH2]|s t _ [IH1 IH2]|c s t _ _ _ _ [IH1 IH2]]; cbn [weight]; (split; [|cbn; tauto || idtac]).
  1-6: repeat match goal with |- context [odd ?c] => is_ground c; let b := eval vm_compute in (odd c) in change (odd c) with b end; cbn; lia.
  - lia.
  - destruct IH2 as [->|H]; [by left|right; by right].
Qed.
Lemma weight_expands E l t : expands E l t -> (weight t <= weight l)%nat /\ (weight t = weight l -> t = l /\ Forall (fun c => ~ white c) l).
Proof.
  induction 1 as [|c s t Hw _ [IH1 IH2]|s ds r t (-> & Hne & _) _ _ _ [IH1 IH2]|s ds r t (-> & Hne & _) _ _ [IH1 IH2]|c s t Hw _ _ [IH1 IH2]].
  - split; [done|]. intros _. split; [done|constructor].
  - cbn [weight]. assert (Ho : odd c = true) by (apply bool_decide_eq_true; unfold white in Hw; tauto). rewrite Ho. change (odd 32%N) with false. cbn [plus]. split; [lia|]. intros H. lia.
  - cbn [weight]. rewrite weight_app. cbn [weight]. change (odd 38%N) with false. change (odd 35%N) with false. change (odd 59%N) with false.
    assert (1 <= weight ds)%nat by (destruct ds as [|c ds]; [done|cbn; destruct (odd c); lia]). split; [destruct (odd _); lia|]. intros Hx. destruct (odd _); lia.
  - cbn [weight]. rewrite weight_app. cbn [weight]. change (odd 38%N) with false. change (odd 35%N) with false. change (odd 59%N) with false. change (odd 120%N) with false.
    assert (1 <= weight ds)%nat by (destruct ds as [|c ds]; [done|cbn; destruct (odd c); lia]). split; [destruct (odd _); lia|]. intros Hx. destruct (odd _); lia.
  - cbn [weight]. split; [lia|]. intros H. destruct IH2 as [-> Hf]; [lia|]. split; [done|]. by constructor.
Qed.
Lemma denotes_less E v w : denotes E v w -> (weight w < weight v)%nat \/ w = v.
Proof.
  intros (l & t0 & Hl & He & a & b & Hab & _). destruct (weight_line_ends _ _ Hl) as [L1 L2]. destruct (weight_expands _ _ _ He) as [X1 X2].
  assert (Ht : weight t0 = (weight a + weight w + weight b)%nat) by (rewrite Hab, !weight_app; lia). destruct (decide (weight w < weight v)%nat) as [?|Hn]; [by left|right].
  destruct X2 as [-> Hf]; [lia|]. destruct L2 as [->|Hin].
  - pose proof (weight_length a). pose proof (weight_length b). destruct a; [|cbn in *; lia]. destruct b; [|cbn in *; lia]. cbn in Hab. by rewrite app_nil_r in Hab.
  - exfalso. rewrite Forall_forall in Hf. apply (Hf 10%N); [by apply elem_of_list_In|]. right. by left.
Qed.
Lemma denotes_fun E v w w' : wf_env E -> denotes E v w -> denotes E v w' -> w = w'.
Proof.
  intros W (l & t & Hl & He & Ht) (l' & t' & Hl' & He' & Ht'). rewrite <- (line_ends_fun _ _ _ Hl Hl') in He'.
  set (repl := fun tk => match tk with TChar m | THex m => char_from_entity m | _ => Ok [32%N] end).
  pose proof (scan_expands E W repl (fun _ => eq_refl) (fun _ => eq_refl) eq_refl _ _ He) as S1. pose proof (scan_expands E W repl (fun _ => eq_refl) (fun _ => eq_refl) eq_refl _ _ He') as S2.
  rewrite S1 in S2. injection S2 as <-. by eapply trimmed_fun.
Qed.
Lemma denotes_nil E : denotes E [] [].
Proof. exists [], []. split; [constructor|]. split; [constructor|]. exists [], []. split_and!; try done; try constructor; intros x H; destruct x; discriminate H. Qed.
Inductive near (E : env) (n : nat) : item -> Prop :=
| nr_element e l kids : Forall (fun p => (weight p.2 <= n)%nat \/ denotes E p.2 p.2) l -> Forall (near E n) kids -> near E n (Element e l kids)
| nr_text v : near E n (Text v)
| nr_comment v : near E n (Comment v)
| nr_cdata v : near E n (CData v)
| nr_pi s : near E n (Pi s).
Lemma reread_near E n c c' : wf_env E -> reread E c c' -> Forall (near E (S n)) c -> Forall (near E n) c'.
Proof.
  intros W. induction 1 as [|e l l' kids kids' r r' Hl Hk IHk Hr IHr|v r r' Hv Hr IH|v t r r' Hv Ht Hr IH|v r r' Hr IH|v r r' Hr IH|v t dd r r' Hna Hpt Hr IH]; intros Hd;
    [constructor|inversion Hd as [|? ? Hx Hd']; subst..]; [|auto|constructor; [constructor|auto]..].
  inversion Hx as [? ? ? H1 H2| | | |]; subst. constructor; [|auto]. constructor; [|auto].
  clear -W Hl H1. induction Hl as [|p q l l' [_ H] _ IH]; [constructor|]. inversion H1 as [|? ? A C]; subst. constructor; [|auto].
  destruct A as [A|A]; [|right; by rewrite (denotes_fun _ _ _ _ W H A)]. destruct (denotes_less _ _ _ H) as [Hlt|Heq]; [left; lia|]. right. rewrite Heq. by rewrite Heq in H.
Qed.
Lemma rereads_near E n c c' : wf_env E -> rereads E n c c' -> Forall (near E n) c -> Forall (near E 0) c'.
Proof. intros W. induction 1 as [c|n c c1 c2 H1 _ _ IH]; intros Hn; [done|]. apply IH. by eapply reread_near. Qed.
Lemma near_more E n x : near E n x -> near E (S n) x.
Proof.
  induction x as [e l kids IH|v|v|v|v] using item_ind'; intros H; inversion H as [? ? ? H1 H2| | | |]; subst; constructor.
  - eapply Forall_impl; [exact H1|]. cbn. intros p [?|?]; [left; lia|by right].
  - clear -IH H2. induction IH; [constructor|]. inversion H2; subst. constructor; auto.
Qed.
Lemma reread_steady E c c' : reread E c c' -> Forall (near E 0) c' -> Forall (steady E) c'.
Proof.
  induction 1 as [|e l l' kids kids' r r' Hl Hk IHk Hr IHr|v r r' Hv Hr IH|v t r r' Hv Ht Hr IH|v r r' Hr IH|v r r' Hr IH|v t dd r r' Hna Hpt Hr IH]; intros Hd; [constructor| |auto|inversion Hd as [|? ? Hx Hd']; subst..].
  - inversion Hd as [|? ? Hx Hd']; subst. inversion Hx as [? ? ? H1 H2| | | |]; subst. constructor; [|auto]. constructor; [|auto]. eapply Forall_impl; [exact H1|]. cbn. intros [k v] [Hv|Hv]; cbn in *; [|done].
    destruct v as [|c v]; [apply denotes_nil|]. pose proof (weight_length (c :: v)). cbn [length] in *. lia.
  - constructor; [|auto]. constructor; [done|by eapply edges_again].
  - constructor; [constructor|auto].
  - constructor; [constructor|auto].
  - constructor; [|auto]. econstructor; [intros Hin; apply Hna; by apply (pi_text_parts _ _ _ Hpt)|by eapply pi_again|done].
Qed.
Lemma rereads_last E n c c' : rereads E (S n) c c' -> (exists c0, reread E c0 c') /\ NoDup (flat_map ids c').
Proof. revert c. induction n as [|n IH]; intros c H; inversion H as [|? ? c1 ? H1 H2 H3]; subst; [|by eapply IH]. inversion H3; subst. eauto. Qed.
Lemma rereads_app E n m c c1 c2 : rereads E n c c1 -> rereads E m c1 c2 -> rereads E (n + m) c c2.
Proof. induction 1; intros H2; cbn; [done|]. eapply rrs_more; eauto. Qed.
(** If all generations up to a bound given by the longest value can be read, then from there on only the CDATA sections change. *)
Theorem C83_eventually : forall E h d D xs c k, reachable h -> wf_env E -> stands_for E h d (XmlDocument D None xs) -> no_cycle_below h d -> Forall plain xs -> decl_valid D ->
  Forall attrs_differ (content xs) -> Forall (values_within k) (content xs) -> rereads E (S (2 * k)) (content xs) c ->
  forall n, exists h' d' xs', rounds E (S (2 * k) + n) h d h' d' /\ stands_for E h' d' (XmlDocument D None xs') /\ Forall2 same_item (content xs') (map (padded n) c).
Proof.
  intros E h d D xs c k Hr W Hx Hac Hp HD Hdf Hv Hrr n. destruct (rereads_last _ _ _ _ Hrr) as [[c0 H0] Hnd].
  assert (Hst : Forall (steady E) c).
  { eapply reread_steady; [exact H0|]. eapply rereads_near; [done|exact Hrr|]. eapply Forall_impl; [exact Hv|]. clear. intros x.
    induction x as [e l kids IH|v|v|v|v] using item_ind'; intros H; inversion H as [? ? ? H1 H2| | | |]; subst; constructor.
    - eapply Forall_impl; [exact H1|]. intros [a b] Hp. left. change (length b <= k)%nat in Hp. change (weight b <= S (2 * k))%nat. pose proof (weight_length b). lia.
    - clear -IH H2. induction IH; [constructor|]. inversion H2; subst. constructor; auto. }
  destruct (C83_rounds E (S (2 * k) + n) h d D xs (map (padded n) c)) as (h' & d' & xs' & H1 & _ & H2 & _ & _ & H3); try done; [|eauto 8].
  eapply rereads_app; [exact Hrr|]. by apply steady_rereads.
Qed.
Print Assumptions C83_eventually.

(** ** With CDATA sections there is always more *)
Fixpoint cdata_size (x : item) : nat :=
  match x with Element _ _ kids => list_sum (map cdata_size kids) | CData v => length v | _ => 0%nat end.
Lemma same_size x : forall y, same_item x y -> cdata_size x = cdata_size y.
Proof.
  induction x as [n l kids IH|v|v|v|v] using item_ind'; intros y H; inversion H as [? ? l1 ? k1 Hl Hk| | | |]; subst; cbn; try done.
  clear -IH Hk. induction Hk; cbn; [done|]. inversion IH; subst. f_equal; auto.
Qed.
Lemma same_size_all a b : Forall2 same_item a b -> list_sum (map cdata_size a) = list_sum (map cdata_size b).
Proof. induction 1; cbn; [done|]. f_equal; [by apply same_size|done]. Qed.
Lemma padded_grows n x : (cdata_size (padded n x) <= cdata_size (padded (S n) x))%nat /\ (has_cdata x -> (cdata_size (padded n x) < cdata_size (padded (S n) x))%nat).
Proof.
  induction x as [m l kids IH|v|v|v|v] using item_ind'; cbn [padded cdata_size]; try (split; [lia|intros H; by inversion H]).
  - assert (G : (list_sum (map cdata_size (map (padded n) kids)) <= list_sum (map cdata_size (map (padded (S n)) kids)))%nat /\
      (Exists has_cdata kids -> (list_sum (map cdata_size (map (padded n) kids)) < list_sum (map cdata_size (map (padded (S n)) kids)))%nat)).
    { induction IH as [|y k [Hy1 Hy2] _ [IH1 IH2]]; cbn [map list_sum foldr]; [split; [done|intros H; inversion H]|]. unfold list_sum in *. cbn [foldr]. split; [lia|].
      intros H. inversion H; subst; [specialize (Hy2 ltac:(done)); lia|specialize (IH2 ltac:(done)); lia]. }
    split; [apply G|]. intros H. inversion H; subst. by apply G.
  - rewrite !app_length, !repeat_length. split; [lia|]. intros _. lia.
Qed.
Lemma padded_grows_all c m n : Exists has_cdata c -> (m < n)%nat -> (list_sum (map cdata_size (map (padded m) c)) < list_sum (map cdata_size (map (padded n) c)))%nat.
Proof.
  intros Hc Hmn. assert (G : forall k, (list_sum (map cdata_size (map (padded k) c)) < list_sum (map cdata_size (map (padded (S k)) c)))%nat).
  { intros k. assert (H : forall l, (list_sum (map cdata_size (map (padded k) l)) <= list_sum (map cdata_size (map (padded (S k)) l)))%nat).
    { induction l as [|x l IH]; cbn; [lia|]. unfold list_sum in *. destruct (padded_grows k x). lia. }
    induction Hc as [x l Hx|x l _ IH]; cbn; unfold list_sum in *; [destruct (padded_grows k x) as [_ Hg]; specialize (Hg Hx); specialize (H l); lia|]. destruct (padded_grows k x). lia. }
  induction Hmn as [|n Hmn IH]; [apply G|]. specialize (G n). lia.
Qed.
Lemma reread_cdata E c c' : reread E c c' -> Exists has_cdata c -> Exists has_cdata c'.
Proof.
  induction 1 as [|e l l' kids kids' r r' Hl Hk IHk Hr IHr|v r r' Hv Hr IH|v t r r' Hv Ht Hr IH|v r r' Hr IH|v r r' Hr IH|v t dd r r' Hna Hpt Hr IH]; intros H; inversion H as [? ? Hx|? ? Hx]; subst;
    try (apply Exists_cons_tl; by auto); try (inversion Hx; fail); auto.
  - apply Exists_cons_hd. inversion Hx; subst. constructor. auto.
  - apply Exists_cons_hd. constructor.
Qed.
(** The round itself leaves no choice. *)
Theorem C83_one : forall E n h d h1 d1 h2 d2, rounds E n h d h1 d1 -> rounds E n h d h2 d2 -> h1 = h2 /\ d1 = d2.
Proof.
  intros E n h d h1 d1 h2 d2 H. revert h2 d2. induction H as [h d|n h d ha da h1 d1 (s & evs & A1 & A2 & A3) _ IH]; intros h2 d2 H2; inversion H2 as [|? ? ? hb db ? ? (s' & evs' & B1 & B2 & B3) H3]; subst; [done|].
  rewrite A1 in B1. injection B1 as <-. rewrite A2 in B2. injection B2 as <-. rewrite A3 in B3. injection B3 as <- <-. by apply IH.
Qed.
Print Assumptions C83_one.
(** No two generations of a document with CDATA sections have the same content. *)
Theorem C83_never : forall E h d D xs c, reachable h -> wf_env E -> stands_for E h d (XmlDocument D None xs) -> no_cycle_below h d -> Forall plain xs -> decl_valid D ->
  Forall attrs_differ (content xs) -> Forall simple (content xs) -> Exists has_cdata (content xs) -> reread E (content xs) c -> NoDup (flat_map ids c) ->
  forall m n hm dm xm hn dn xn, m <> n -> rounds E (S m) h d hm dm -> stands_for E hm dm (XmlDocument D None xm) ->
    rounds E (S n) h d hn dn -> stands_for E hn dn (XmlDocument D None xn) -> ~ Forall2 same_item (content xm) (content xn).
Proof.
  intros E h d D xs c Hr W Hx Hac Hp HD Hdf Hsi Hcd Hrr Hnd m n hm dm xm hn dn xn Hmn Rm Sm Rn Sn H.
  destruct (C83_settles E h d D xs c) with (n := m) as (hm' & dm' & xm' & M1 & M2 & M3); try done. destruct (C83_settles E h d D xs c) with (n := n) as (hn' & dn' & xn' & N1 & N2 & N3); try done.
  destruct (C83_one _ _ _ _ _ _ _ _ Rm M1) as [<- <-]. destruct (C83_one _ _ _ _ _ _ _ _ Rn N1) as [<- <-].
  pose proof (stands_fun _ _ _ _ _ Sm M2) as [= <-]. pose proof (stands_fun _ _ _ _ _ Sn N2) as [= <-]. apply reread_cdata in Hrr; [|done].
  apply same_size_all in H, M3, N3. destruct (Nat.lt_total m n) as [Hlt|[?|Hlt]]; [|done|].
  - pose proof (padded_grows_all c m n Hrr Hlt). lia.
  - pose proof (padded_grows_all c n m Hrr Hlt). lia.
Qed.
Print Assumptions C83_never.

(** ** There is always a first round *)
Lemma front_gone v : exists a t, v = a ++ t /\ Forall edge_white a /\ (forall c u, t = c :: u -> ~ edge_white c).
Proof.
  induction v as [|c v (a & t & -> & Ha & Ht)]; [exists [], []; by split_and!|]. destruct (edge_whiteb c) eqn:Hc.
  - exists (c :: a), t. split; [done|]. split; [|done]. constructor; [by apply edge_whiteb_spec|done].
  - exists [], (c :: a ++ t). split; [done|]. split; [constructor|]. intros c' u [= <- _] H. apply edge_whiteb_spec in H. congruence.
Qed.
Lemma edges_total v : exists t, edges_gone v t.
Proof.
  destruct (front_gone v) as (a & t & -> & Ha & Ht). destruct (front_gone (rev t)) as (b & u & Hu & Hb & Hu').
  assert (Et : t = rev u ++ rev b) by (rewrite <- rev_app_distr, <- Hu; by rewrite rev_involutive). exists (rev u), a, (rev b). split; [by rewrite Et|]. split; [done|].
  split; [apply Forall_forall; intros x Hx; rewrite Forall_forall in Hb; apply Hb; by apply elem_of_list_In, in_rev, elem_of_list_In|].
  split; [intros c w Hw; apply (Ht c (w ++ rev b)); by rewrite Et, Hw|]. intros c w Hw. apply (Hu' c (rev w)). rewrite <- (rev_involutive u), Hw. by rewrite rev_app_distr.
Qed.
Lemma denotes_total E v : wf_env E -> ~ In 38%N v -> ~ In 37%N v -> exists w, denotes E v w.
Proof.
  intros W H1 H2. exists (trim_matches 32 (map white_to_space (normalize_eol v))), (normalize_eol v), (map white_to_space (normalize_eol v)).
  pose proof (normalize_eol_spec v) as Hl. split; [done|]. split; [|apply trim_matches_spec]. apply expands_plain. 
  intros c Hc. destruct (line_ends_in _ _ _ Hl Hc) as [->|Hv]; [done|]. split; intros ->; done.
Qed.
Theorem C83_total : forall E c, wf_env E -> Forall simple c -> exists c', reread E c c'.
Proof.
  intros E c W Hc. assert (H : forall x, simple x -> forall r r', reread E r r' -> exists c', reread E (x :: r) c').
  { intros x. induction x as [n l kids IH|v|v|v|v] using item_ind'; intros Hs r r' Hr; inversion Hs as [? ? ? Hl Hk| | | |? Hna]; subst.
    - assert (exists l', Forall2 (fun p q : str * str => q.1 = p.1 /\ denotes E p.2 q.2) l l') as [l' Hl'].
      { clear -W Hl. induction Hl as [|[k v] l [H1 H2] _ [l' IH]]; [exists []; constructor|]. destruct (denotes_total E v W H1 H2) as [w Hw]. exists ((k, w) :: l'). by constructor. }
      assert (exists kids', reread E kids kids') as [kids' Hk'].
      { clear -IH Hk. induction IH as [|y k Hy _ IHk]; [exists []; constructor|]. inversion Hk; subst. destruct IHk as [k' Hk']; [done|]. by eapply Hy. }
      eexists. by apply rr_element.
    - destruct (edges_total v) as [t Ht]. destruct (decide (t = [])) as [->|Hne]; eexists; [by apply rr_blank|by eapply rr_text].
    - eexists. by apply rr_comment.
    - eexists. by apply rr_cdata.
    - destruct (pi_text_total v) as (t & dd & Ht). eexists. by eapply rr_pi. }
  induction Hc as [|x l Hx _ [l' IH]]; [exists []; constructor|]. by eapply H.
Qed.
Print Assumptions C83_total.

(** ** An example, and values that take longer *)
Definition ex_gen_ops : list op :=
  [OCreateDocument None None None options_new; OCreateElement 0 (lit "a"); OSetAttribute 1 (lit "k") (lit " v "); OCreateText 0 (lit " t "); OAppendChild 1 4; OCreateCData 0 (lit "x"); OAppendChild 1 5; OAppendChild 0 1].
Definition ex_gen : heap := default empty_heap (run env0 ex_gen_ops empty_heap).
Fixpoint generations (E : env) (n : nat) (h : heap) (d : id) : list (res str) :=
  to_string E h d ::
  match n with
  | 0%nat => []
  | S m => match to_string E h d with
           | Ok s => match reader_events s with Some evs => match read_events E evs h with (h', POk d') => generations E m h' d' | _ => [] end | None => [] end
           | _ => []
           end
  end.
Definition ex_gen_doc : list xml := [XmlElement (lit "a") [(lit "k", lit "v")] [XmlText (Some (lit " t ")); XmlCData (Some (lit "x"))]].
Definition ex_gen_read : list item := [Element (lit "a") [(lit "k", lit "v")] [Text (lit "t"); CData (lit "  x  ")]].
Example C83_example : reachable ex_gen /\ stands_for env0 ex_gen 0 (XmlDocument None None ex_gen_doc) /\ no_cycle_below ex_gen 0 /\ Forall plain ex_gen_doc /\ Forall attrs_differ (content ex_gen_doc) /\
  Forall simple (content ex_gen_doc) /\ Exists has_cdata (content ex_gen_doc) /\ reread env0 (content ex_gen_doc) ex_gen_read /\ NoDup (flat_map ids ex_gen_read) /\
  map (padded 2) ex_gen_read = [Element (lit "a") [(lit "k", lit "v")] [Text (lit "t"); CData (lit "    x    ")]] /\
  generations env0 3 ex_gen 0 = [Ok (lit "<a k=""v""> t <![CDATA[ x ]]></a>"); Ok (lit "<a k=""v"">t<![CDATA[  x  ]]></a>"); Ok (lit "<a k=""v"">t<![CDATA[   x   ]]></a>"); Ok (lit "<a k=""v"">t<![CDATA[    x    ]]></a>")].
Proof.
  assert (Hc : content ex_gen_doc = [Element (lit "a") [(lit "k", lit "v")] [Text (lit " t "); CData (lit " x ")]]) by (by vm_compute).
  split; [apply (run0_reachable ex_gen_ops); by vm_compute|].
  split; [let n := the_node ex_gen 0 in refine (sf_document env0 ex_gen 0 n _ ex_gen_doc _ _ _ _ _); [by vm_compute|done|by vm_compute|by vm_compute|]; unfold ex_gen_doc; cbn [n_children]; show|].
  split; [eapply (tree_no_cycle _ _ (Tr 0 [Tr 1 [Tr 4 []; Tr 5 []]])); repeat (first [constructor|eapply tree_intro; [by vm_compute|]])|].
  split; [unfold ex_gen_doc; apply List.Forall_cons; [|constructor]; apply pl_element; apply List.Forall_cons; [constructor|]; apply List.Forall_cons; [|constructor]; apply pl_cdata; intros s a b [= <-] H; apply (f_equal length) in H; rewrite !app_length in H; cbn in H; lia|].
  rewrite Hc. split; [apply List.Forall_cons; [|constructor]; apply ad_element; [apply NoDup_singleton|repeat constructor]|].
  split; [apply List.Forall_cons; [|constructor]; apply si_element; [apply List.Forall_cons; [|constructor]; vm_compute; intuition congruence|repeat constructor]|].
  split; [apply Exists_cons_hd; apply hc_below; apply Exists_cons_tl, Exists_cons_hd; constructor|].
  split.
  { unfold ex_gen_read. apply rr_element; [apply Forall2_cons_2; [|constructor]; split; [done|] |apply rr_text; [|done|apply (rr_cdata env0 (lit " x ")), rr_nil]|apply rr_nil].
    - apply plain_value_denotes; [exact wf_env0|]. settle.
    - exists (lit " "), (lit " "). split; [done|]. split; [repeat constructor; by vm_compute|]. split; [repeat constructor; by vm_compute|].
      split; intros c u H; intros Hw%edge_whiteb_spec; [|apply (f_equal (@rev N)) in H; rewrite rev_app_distr in H]; vm_compute in H; injection H as <- _; by vm_compute in Hw. }
  split; [constructor|]. split; by vm_compute.
Qed.
(** Without CDATA: the document of C74. *)
Example C83_stable_example : Forall simple (content ex_round_doc) /\ Forall (fun x => ~ has_cdata x) (content ex_round_doc) /\ generations env0 2 ex_round 0 = [Ok ex_round_text; Ok ex_round_text; Ok ex_round_text].
Proof.
  assert (Hc : content ex_round_doc = [Element (lit "a") [(lit "k", lit "1<2")] [Text (lit "1 & 2<3"); Comment (lit "a>b"); Element (lit "p:b") [] [Text (lit "t")]]]) by (by vm_compute).
  rewrite Hc. split; [apply List.Forall_cons; [|constructor]; apply si_element; [apply List.Forall_cons; [|constructor]; vm_compute; intuition congruence|repeat constructor]|].
  split; [|by vm_compute]. apply List.Forall_cons; [|constructor]. intros H. inversion H as [|? ? ? H1]; subst. repeat (inversion H1 as [? ? H2|? ? H2]; subst; clear H1; [inversion H2 as [|? ? ? H3]; subst; inversion H3 as [? ? H4|? ? H4]; subst; inversion H4|rename H2 into H1]).
  all: try inversion H1.
Qed.
(** A value with references still changes in the second round and the third. *)
Definition ex_long : heap := default empty_heap (run env0 (ex_value (lit "&#38;#38;#38;#60;")) empty_heap).
Theorem C83_values_refuted : reachable ex_long /\ generations env0 3 ex_long 0 =
  [Ok (lit "<a k=""&#38;#38;#38;#60;""></a>"); Ok (lit "<a k=""&#38;#38;#60;""></a>"); Ok (lit "<a k=""&#38;#60;""></a>"); Ok (lit "<a k=""&#60;""></a>")].
Proof. split; [|by vm_compute]. apply (run0_reachable (ex_value (lit "&#38;#38;#38;#60;"))). by vm_compute. Qed.
Print Assumptions C83_values_refuted.
(** It settles in the end, as [C83_eventually] says. *)
Definition ex_long_doc : list xml := [XmlElement (lit "a") [(lit "k", lit "&#38;#38;#60;")] []].
Lemma denotes_dec ds r : ds <> [] -> Forall ascii_digit ds -> scalar (number 10 ds) -> number 10 ds <> 32%N -> (forall c, In c r -> c <> 38 /\ c <> 37 /\ c <> 9 /\ c <> 10 /\ c <> 13 /\ c <> 0x85 /\ c <> 0x2028 /\ c <> 32)%N ->
  denotes env0 (38%N :: 35%N :: ds ++ 59%N :: r) (number 10 ds :: r).
Proof.
  intros Hne Hds Hsc H32 Hr. exists (38%N :: 35%N :: ds ++ 59%N :: r), (number 10 ds :: r). split; [|split].
  - apply line_ends_id. repeat constructor; try done. apply Forall_app. split; [eapply Forall_impl; [exact Hds|]; cbn; unfold ascii_digit; intros c Hc; split_and!; lia|]. constructor; [done|].
    apply Forall_forall. intros c Hc%elem_of_list_In. specialize (Hr c Hc). tauto.
  - eapply ex_dec; [split; [reflexivity|]; split; [done|]|done|done|].
    + eapply Forall_impl; [exact Hds|]. unfold ascii_digit. intros c Hc. assert (Hd : (c = 48 \/ c = 49 \/ c = 50 \/ c = 51 \/ c = 52 \/ c = 53 \/ c = 54 \/ c = 55 \/ c = 56 \/ c = 57)%N) by lia.
      repeat (destruct Hd as [->|Hd]; [by vm_compute|]). subst. by vm_compute.
    + replace r with (map white_to_space r) at 2; [apply expands_plain; intros c Hc; specialize (Hr c Hc); tauto|]. rewrite <- (map_id r) at 2. apply map_ext_in. intros c Hc. specialize (Hr c Hc).
      unfold white_to_space. rewrite bool_decide_false; [done|]. unfold white. tauto.
  - exists [], []. rewrite app_nil_r. split_and!; try done; try constructor; intros x H.
    + by injection H.
    + destruct (exists_last (l := r)) as (r' & y & ->).
      * intros ->. destruct x as [|? [|]]; cbn in H; congruence.
      * change (number 10 ds :: r' ++ [y]) with ((number 10 ds :: r') ++ [y]) in H. apply app_inj_tail in H as [_ ->]. specialize (Hr 32%N). destruct Hr as (_ & _ & _ & _ & _ & _ & _ & Hr); [|done]. apply in_app_iff. right. by left.
Qed.
Ltac no_special := let c := fresh in let Hc := fresh in intros c Hc; vm_compute in Hc; repeat destruct Hc as [<-|Hc]; try done.
Ltac digits := let c := fresh in let Hc := fresh in apply Forall_forall; intros c Hc%elem_of_list_In; vm_compute in Hc; repeat (destruct Hc as [<-|Hc]; [unfold ascii_digit; lia|]); destruct Hc.
Ltac is_scalar := match goal with |- scalar ?x => let v := eval vm_compute in x in change (scalar v); unfold scalar; lia end.
Lemma one_value v w : denotes env0 v w -> reread env0 [Element (lit "a") [(lit "k", v)] []] [Element (lit "a") [(lit "k", w)] []].
Proof. intros H. apply rr_element; [|constructor|constructor]. apply Forall2_cons_2; [|constructor]. by split. Qed.
Example C83_eventually_example : stands_for env0 ex_long 0 (XmlDocument None None ex_long_doc) /\ no_cycle_below ex_long 0 /\ Forall plain ex_long_doc /\ Forall attrs_differ (content ex_long_doc) /\
  Forall (values_within 13) (content ex_long_doc) /\ rereads env0 27 (content ex_long_doc) [Element (lit "a") [(lit "k", lit "<")] []].
Proof.
  assert (Hc : content ex_long_doc = [Element (lit "a") [(lit "k", lit "&#38;#38;#60;")] []]) by (by vm_compute).
  split; [let n := the_node ex_long 0 in refine (sf_document env0 ex_long 0 n _ ex_long_doc _ _ _ _ _); [by vm_compute|done|by vm_compute|by vm_compute|]; unfold ex_long_doc; cbn [n_children]; show|].
  split; [eapply (tree_no_cycle _ _ (Tr 0 [Tr 1 []])); repeat (first [constructor|eapply tree_intro; [by vm_compute|]])|].
  split; [repeat constructor|]. rewrite Hc. split; [apply List.Forall_cons; [|constructor]; apply ad_element; [apply NoDup_singleton|constructor]|].
  split; [apply List.Forall_cons; [|constructor]; apply vw_element; [apply List.Forall_cons; [|constructor]; vm_compute; lia|constructor]|].
  eapply rrs_more; [apply one_value; apply (denotes_dec (lit "38") (lit "#38;#60;")); [done|digits|is_scalar|done|no_special]|constructor|].
  eapply rrs_more; [apply one_value; apply (denotes_dec (lit "38") (lit "#60;")); [done|digits|is_scalar|done|no_special]|constructor|].
  eapply rrs_more; [apply one_value; apply (denotes_dec (lit "60") []); [done|digits|is_scalar|done|no_special]|constructor|].
  apply (steady_rereads env0 24 [Element (lit "a") [(lit "k", lit "<")] []]); [|constructor]. apply List.Forall_cons; [|constructor]. apply sy_element; [|constructor]. apply List.Forall_cons; [|constructor].
  apply plain_value_denotes; [exact wf_env0|]. settle.
Qed.
