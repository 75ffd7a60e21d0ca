(** * ProofIsoRun: queries on states that look alike, and runs of two clients *)
From Coq Require Import Lia.
From Verif Require Import SpecIso ProofIso ProofFuel ProofIsoOps ProofIsoExec.

Implicit Types R : rel.

(** ** Queries *)
Definition answer_rel R (a a' : answer) : Prop :=
  match a, a' with
  | ANode i, ANode i' => R i i'
  | AOptNode i, AOptNode i' => option_Forall2 R i i'
  | ANodes l, ANodes l' => Forall2 R l l'
  | AMap m, AMap m' => map_rel R m m'
  | (ANode _ | AOptNode _ | ANodes _ | AMap _), _ => False
  | _, _ => a = a'
  end.
Lemma rr_ans {A} (RA : A -> A -> Prop) R (f : A -> answer) r r' : res_rel RA r r' -> (forall a a', RA a a' -> answer_rel R (f a) (f a')) -> res_rel (answer_rel R) (ans f r) (ans f r').
Proof. intros H Hf. unfold ans. eapply rr_bind; [exact H|]. intros a a' Ha. by apply Hf. Qed.
Section ask.
  Context (E : env) (HE : ordered_by_keys E) R (h h' : heap) (A : alike R h h').
  Lemma s_plain {B} (k : node -> B) i i' : R i i' -> (forall n n', node_rel R n n' -> k n = k n') -> res_rel eq (let? n := get_node h i in Ok (k n)) (let? n := get_node h' i' in Ok (k n)).
  Proof. intros Hi Hk. eapply rr_bind; [by apply (s_get _ _ _ A)|]. intros n n' Hn. by apply Hk. Qed.
  Lemma s_is_trait T i i' : R i i' -> res_rel eq (is_trait T h i) (is_trait T h' i').
  Proof. intros Hi. destruct T; cbn; unfold is_f, is_char_data; apply s_plain; try done; intros n n' Hn; by rewrite (nr_type _ _ _ Hn). Qed.
  Lemma s_as_trait T i i' : R i i' -> res_rel R (as_trait T h i) (as_trait T h' i').
  Proof. intros Hi. destruct T; cbn; unfold as_f, as_char_data; (eapply rr_bind; [by apply (s_get _ _ _ A)|]); intros n n' Hn; rewrite (nr_type _ _ _ Hn); try (destruct (type_eqb _ _); done); destruct (n_type n'); done. Qed.
  Lemma s_to_string i i' : R i i' -> res_rel eq (to_string E h i) (to_string E h' i').
  Proof.
    intros Hi. unfold to_string, walk_fuel. set (F := Nat.max (S (S (h_next h))) (S (S (h_next h')))).
    rewrite <- (fmt_stable h (al_live _ _ _ A) E (S (S (h_next h))) F i) by lia. rewrite <- (fmt_stable h' (al_live' _ _ _ A) E (S (S (h_next h'))) F i') by lia. by apply (s_fmt E HE R h h' A).
  Qed.
  Lemma s_search_all p i i' : R i i' -> res_rel (Forall2 R) (search_elements (walk_fuel h) h p i) (search_elements (walk_fuel h') h' p i').
  Proof.
    intros Hi. unfold walk_fuel. set (F := Nat.max (S (h_next h)) (S (h_next h'))).
    rewrite <- (search_stable h (al_live _ _ _ A) p (S (h_next h)) F i) by lia. rewrite <- (search_stable h' (al_live' _ _ _ A) p (S (h_next h')) F i') by lia. by apply (s_search R h h' A).
  Qed.
  Lemma s_resolve_namespace i i' p : R i i' -> res_rel eq (resolve_namespace h i p) (resolve_namespace h' i' p).
  Proof.
    intros Hi. unfold resolve_namespace, walk_fuel. set (F := Nat.max (S (h_next h)) (S (h_next h'))).
    rewrite <- (resolve_ns_stable h (al_live _ _ _ A) p (S (h_next h)) F i) by lia. rewrite <- (resolve_ns_stable h' (al_live' _ _ _ A) p (S (h_next h')) F i') by lia. by apply (s_resolve_ns R h h' A).
  Qed.
  Lemma s_resolve_prefix i i' u : R i i' -> res_rel eq (resolve_prefix E h i u) (resolve_prefix E h' i' u).
  Proof.
    intros Hi. unfold resolve_prefix, walk_fuel. set (F := Nat.max (S (h_next h)) (S (h_next h'))).
    rewrite <- (resolve_px_stable h (al_live _ _ _ A) E u (S (h_next h)) F i) by lia. rewrite <- (resolve_px_stable h' (al_live' _ _ _ A) E u (S (h_next h')) F i') by lia. by apply (s_resolve_px E R h h' A).
  Qed.
  Lemma s_names {B} (k : Name -> B) i i' : R i i' -> res_rel eq (let? n := node_name h i in Ok (k n)) (let? n := node_name h' i' in Ok (k n)).
  Proof. intros Hi. eapply rr_bind; [by apply (s_name _ _ _ A)|]. by intros n ? <-. Qed.
  Ltac ext := let n := fresh in let n' := fresh in let Hn := fresh in intros n n' Hn; by destruct (nr_ext _ _ _ Hn).
  Theorem sim_ask f q : R (asked q) (f (asked q)) -> res_rel (answer_rel R) (ask E h q) (ask E h' (rename_query f q)).
  Proof.
    intros Hi. destruct q; cbn [ask rename_query asked] in *;
      try (apply (rr_ans eq); [|by intros a ? <-]; first
        [ by apply s_is_trait | by apply (s_name _ _ _ A) | by apply (s_value _ _ _ A) | by apply (s_type _ _ _ A) | by apply (s_has_children _ _ _ A) | by apply s_to_string | by apply (s_attr_value E R h h' A)
        | by apply (s_length _ _ _ A) | by apply (s_data _ _ _ A) | by apply (s_substring _ _ _ A) | by apply (s_decl R h h' A) | by apply (s_get_attribute E HE R h h' A) | by apply (s_get_attribute_ns E HE R h h' A)
        | by apply (s_has_attribute R h h' A) | by apply (s_has_attribute_ns R h h' A) | by apply (s_contains R h h' A) | by apply (s_get_namespace R h h' A) | by apply s_resolve_namespace
        | by apply (s_mapped E R h h' A) | by apply (s_get_prefix E R h h' A) | by apply s_resolve_prefix
        | by apply s_names
        | unfold is_supported, specified; by apply s_plain
        | unfold dt_public_id, dt_system_id, dt_internal_subset, ent_public_id, ent_system_id, ent_notation_name, not_public_id, not_system_id; apply s_plain; [done|ext] ]; fail);
      try (apply (rr_ans (option_Forall2 R)); [|by intros a a' Ha]; first
        [ by apply (s_parent _ _ _ A) | by apply (s_first _ _ _ A) | by apply (s_last _ _ _ A) | by apply (s_previous _ _ _ A) | by apply (s_next _ _ _ A) | by apply (s_owner _ _ _ A) | by apply (s_owner_element R h h' A)
        | by apply (s_doc_type _ _ _ A) | by apply (s_by_id _ _ _ A) | by apply (s_attr_node E HE R h h' A) | by apply (s_attr_node_ns E HE R h h' A) ]; fail);
      try (apply (rr_ans (Forall2 R)); [|by intros a a' Ha]; first [ by apply (s_children _ _ _ A) | by apply s_search_all ]; fail).
    - apply (rr_ans R); [by apply s_as_trait|by intros a a' Ha].
    - apply (rr_ans (map_rel R)); [by apply (s_attributes _ _ _ A)|by intros a a' Ha].
    - apply (rr_ans eq); [|by intros a ? <-]. unfold has_attributes. eapply rr_bind; [by apply (s_attributes _ _ _ A)|]. intros m m' Hm. cbn. by rewrite (mrel_nil _ _ _ Hm).
    - apply (rr_ans (fun _ _ => True)); [|done]. unfold implementation. eapply rr_bind; [by apply (s_get _ _ _ A)|]. ext.
    - apply (rr_ans (Forall2 R)); [|by intros a a' Ha]. unfold document_get_elements_by_tag_name, document_element. eapply rr_bind; [by apply (s_first _ _ _ A)|]. intros o o' [x x' Hx|]; [by apply s_search_all|constructor].
    - apply (rr_ans (Forall2 R)); [|by intros a a' Ha]. unfold document_get_elements_by_tag_name_ns, document_element. eapply rr_bind; [by apply (s_first _ _ _ A)|]. intros o o' [x x' Hx|]; [by apply s_search_all|constructor].
    - apply (rr_ans (map_rel R)); [|by intros a a' Ha]. unfold dt_entities. eapply rr_bind; [by apply (s_get _ _ _ A)|]. intros n n' Hn. cbn. destruct (nr_ext _ _ _ Hn); try constructor; done.
    - apply (rr_ans (map_rel R)); [|by intros a a' Ha]. unfold dt_notations. eapply rr_bind; [by apply (s_get _ _ _ A)|]. intros n n' Hn. cbn. destruct (nr_ext _ _ _ Hn); try constructor; done.
    - apply (rr_ans eq); [|by intros a ? <-]. unfold pi_length, pi_data. eapply rr_bind; [by apply (s_value _ _ _ A)|]. by intros v ? <-.
  Qed.
End ask.
Section graph.
  Context R (f : id -> id) (Hf : forall a b, R a b -> b = f a).
  Lemma graph_option o o' : option_Forall2 R o o' -> o' = option_map f o.
  Proof. destruct 1 as [a b H|]; [|done]. cbn. by rewrite (Hf _ _ H). Qed.
  Lemma graph_list l l' : Forall2 R l l' -> l' = map f l.
  Proof. induction 1 as [|a b l l' H _ IH]; [done|]. cbn. by rewrite (Hf _ _ H), IH. Qed.
  Lemma graph_answer a a' : answer_rel R a a' -> a' = rename_answer f a.
  Proof.
    destruct a, a'; cbn; intros H; try done; try congruence; [by rewrite (Hf _ _ H)|by rewrite (graph_option _ _ H)|by rewrite (graph_list _ _ H)|].
    f_equal. induction H as [|[k x] [k' x'] m m' [Hk Hx] _ IH]; [done|]. cbn in *. by rewrite (Hf _ _ Hx), IH, Hk.
  Qed.
  Lemma graph_res {A} (RA : A -> A -> Prop) g r r' : (forall a a', RA a a' -> a' = g a) -> res_rel RA r r' -> r' = rename_res g r.
  Proof. intros H. destruct r, r'; cbn; intros Hr; try done; try congruence. by rewrite (H _ _ Hr). Qed.
End graph.

(** ** Two clients *)
Definition belongs (own : list bool) (c : bool) (a b : id) : Prop := own !! a = Some c /\ b = rank own c a.
Lemma alike_iff R R1 h h' : (forall a b, R a b <-> R1 a b) -> alike R h h' -> alike R1 h h'.
Proof.
  intros H A. assert (HS : sub R R1) by (intros a b; apply H). split.
  - intros a b b' H1 H2. eapply (al_fun _ _ _ A); by apply H.
  - intros a a' b H1 H2. eapply (al_inj _ _ _ A); by apply H.
  - intros a b H1. apply (al_lt _ _ _ A). by apply H.
  - intros a b H1. apply H, (al_node _ _ _ A) in H1. destruct H1 as [n n' Hn|]; constructor. by eapply nrel_mono.
  - apply A.
  - apply A.
  - intros a n Ha Ho r Hr. destruct (al_out _ _ _ A a n Ha) with (r := r) as [H1 H2]; [intros b Hb; by apply H, Ho in Hb|done|]. split; [|done]. intros b Hb. by apply H, H1 in Hb.
  - intros a n Ha Ho r Hr. destruct (al_out' _ _ _ A a n Ha) with (r := r) as [H1 H2]; [intros b Hb; by apply H, Ho in Hb|done|]. split; [|done]. intros b Hb. by apply H, H1 in Hb.
Qed.
Lemma rank_app own x c a : (a <= length own)%nat -> rank (own ++ x) c a = rank own c a.
Proof. intros H. unfold rank. by rewrite take_app_le. Qed.
Lemma rank_all own c a : (length own <= a)%nat -> rank own c a = length (filter (fun x => x = c) own).
Proof. intros H. unfold rank. by rewrite take_ge. Qed.
Lemma rank_le own c a b : (a <= b)%nat -> (rank own c a <= rank own c b)%nat.
Proof.
  intros H. unfold rank. revert a b H. induction own as [|x own IH]; intros [|a] [|b] H; try (cbn; lia). specialize (IH a b ltac:(lia)). rewrite !firstn_cons, !filter_cons. destruct (decide (x = c)); cbn [length]; lia.
Qed.
Lemma rank_S own c a : own !! a = Some c -> rank own c (S a) = S (rank own c a).
Proof. intros H. unfold rank. rewrite (take_S_r _ _ _ H), filter_app, app_length, filter_cons, decide_True by done. cbn. lia. Qed.
Lemma filter_repeat c c' d : length (filter (fun x : bool => x = c) (repeat c' d)) = if decide (c' = c) then d else O.
Proof. induction d as [|d IH]; [by destruct (decide (c' = c))|]. cbn [repeat]. rewrite filter_cons. destruct (decide (c' = c)); cbn [length]; [by rewrite IH|done]. Qed.
Lemma rename_ext f g o : (forall i, In i (given o) -> f i = g i) -> rename f o = rename g o.
Proof.
  intros H. destruct o; cbn in *; try done; try (f_equal; apply H; tauto).
  - destruct dt; cbn; [|done]. do 2 f_equal. apply H. by left.
  - destruct r; cbn in *; do 2 f_equal; try apply H; tauto.
  - f_equal. apply map_ext_in. apply H.
Qed.
Definition paired (h : heap) (own : list bool) (hs : bool -> heap) : Prop :=
  h_next h = length own /\ forall c, h_next (hs c) = rank own c (length own) /\ alike (belongs own c) h (hs c).
Lemma belongs_app own x c a b : (a < length own)%nat -> belongs (own ++ x) c a b <-> belongs own c a b.
Proof. intros H. unfold belongs. rewrite lookup_app_l by done. by rewrite rank_app by lia. Qed.
Lemma belongs_own own c d a b : belongs (own ++ repeat c d) c a b <-> belongs own c a b \/ exists k, (k < d)%nat /\ a = (length own + k)%nat /\ b = (rank own c (length own) + k)%nat.
Proof.
  destruct (decide (a < length own)%nat) as [Ha|Ha].
  - rewrite belongs_app by done. split; [by left|]. intros [H|(k & _ & -> & _)]; [done|lia].
  - assert (Hr : forall k, rank (own ++ repeat c d) c (length own + k) = (rank own c (length own) + Nat.min k d)%nat).
    { intros k. unfold rank. rewrite take_add_app, filter_app, app_length by done. rewrite firstn_all. f_equal.
      assert (take k (repeat c d) = repeat c (Nat.min k d)) as -> by (clear; revert k; induction d as [|d IH]; intros [|k]; cbn; [done|done|done|by rewrite IH]). rewrite filter_repeat. by rewrite decide_True. }
    unfold belongs at 1. split.
    + intros [H ->]. right. exists (a - length own)%nat. rewrite lookup_app_r in H by lia. pose proof (lookup_lt_Some _ _ _ H) as Hd. rewrite repeat_length in Hd. split; [lia|]. split; [lia|].
      rewrite <- (Nat.min_l (a - length own) d) by lia. rewrite <- Hr. f_equal. lia.
    + intros [[H _]|(k & Hk & -> & ->)]; [apply lookup_lt_Some in H; lia|]. split; [|rewrite Hr; lia]. rewrite lookup_app_r by lia. replace (length own + k - length own)%nat with k by lia.
      rewrite <- (replicate_length d c) in Hk. assert (repeat c d = replicate d c) as -> by (clear; induction d; cbn; congruence). rewrite replicate_length in Hk. by apply lookup_replicate_2.
Qed.
Lemma belongs_other own c c' d a b : c <> c' -> belongs (own ++ repeat c' d) c a b <-> belongs own c a b.
Proof.
  intros Hc. destruct (decide (a < length own)%nat) as [Ha|Ha]; [by apply belongs_app|]. split; intros [H _]; exfalso.
  - rewrite lookup_app_r in H by lia. apply elem_of_list_lookup_2, elem_of_list_In, repeat_spec in H. done.
  - apply lookup_lt_Some in H. lia.
Qed.
Lemma step_paired E (HE : ordered_by_keys E) c o h own hs : paired h own hs -> (forall i, In i (given o) -> own !! i = Some c) -> (exec E o h).2 <> Diverge ->
  let h1 := (exec E o h).1 in let own1 := own ++ repeat c (h_next h1 - h_next h) in let p := exec E (rename (rank own c) o) (hs c) in
  p.2 = rename_res (option_map (rank own1 c)) (exec E o h).2 /\ paired h1 own1 (fun x => if bool_decide (x = c) then p.1 else hs x).
Proof.
  intros [HN HP] Hg Hd. cbn. destruct (HP c) as [HNc HAc].
  destruct (sim_exec E HE (belongs own c) (rank own c) o (fun i Hi => conj (Hg i Hi) eq_refl) h (hs c) HAc) as [[D _]|(R1 & A1 & G1 & Hr)]; [done|].
  destruct (gr_rel _ _ _ _ _ _ G1) as (d & Hd1 & Hd2 & HR). replace (h_next (exec E o h).1 - h_next h)%nat with d by lia.
  assert (HR1 : forall a b, R1 a b <-> belongs (own ++ repeat c d) c a b) by (intros a b; rewrite HR, belongs_own, HN, HNc; done).
  pose proof (alike_iff _ _ _ _ HR1 A1) as A2. split.
  { eapply graph_res; [|exact Hr]. intros x y Hxy. apply (graph_option R1); [|done]. intros a b Hab. by apply HR1 in Hab as [_ ->]. }
  split; [by rewrite Hd1, app_length, repeat_length, HN|]. intros x. case_bool_decide as Hx.
  - subst x. split; [|done]. rewrite Hd2, HNc. rewrite (rank_all (own ++ _)), (rank_all own) by done. rewrite filter_app, app_length, filter_repeat. by rewrite decide_True.
  - destruct (HP x) as [HNx HAx]. split.
    { rewrite HNx, (rank_all (own ++ _)), (rank_all own) by done. rewrite filter_app, app_length, filter_repeat. rewrite decide_False by done. lia. }
    apply (alike_iff (belongs own x)); [intros a b; symmetry; by apply belongs_other|].
    assert (Hout : forall a, own !! a = Some x -> outside (belongs own c) a) by (intros a Ha b [Hb _]; congruence).
    split; try apply HAx.
    + intros a b H. destruct (al_lt _ _ _ HAx a b H). split; [lia|done].
    + intros a b H. rewrite (gr_frame _ _ _ _ _ _ G1); [by apply HAx|apply (al_lt _ _ _ HAx a b H)|apply Hout, H].
    + apply A2.
    + intros a n Ha Ho r Hr0. pose proof (al_live _ _ _ A2 a n Ha) as Hlt.
      assert (Hc : (own ++ repeat c d) !! a = Some c).
      { destruct (decide (a < length own)%nat) as [Hla|Hla].
        - rewrite lookup_app_l by done. destruct (lookup_lt_is_Some_2 own a Hla) as [y Hy]. destruct (decide (y = c)) as [->|Hyc]; [done|]. exfalso. apply (Ho (rank own x a)). split; [|done]. rewrite Hy. f_equal. destruct x, y, c; done.
        - rewrite lookup_app_r by lia. assert (repeat c d = replicate d c) as -> by (clear; induction d; cbn; congruence). apply lookup_replicate_2. lia. }
      assert (HX : exists b, belongs (own ++ repeat c d) c r b).
      { assert (Hab : belongs (own ++ repeat c d) c a (rank (own ++ repeat c d) c a)) by done. pose proof (al_node _ _ _ A2 _ _ Hab) as Hn. rewrite Ha in Hn. inversion Hn as [? n' HNN|]; subst.
        pose proof (refs_rel _ _ _ HNN) as Hrefs. apply elem_of_list_In, elem_of_list_lookup in Hr0 as [k Hk]. pose proof (lrel_lookup _ _ _ k Hrefs) as HC. rewrite Hk in HC. inversion HC; subst. eauto. }
      destruct HX as [b Hb]. split; [|by apply (al_lt _ _ _ A2 _ _ Hb)]. intros z [Hz _]. destruct Hb as [Hb _]. rewrite lookup_app_l in Hb by (by eapply lookup_lt_Some). congruence.
Qed.
Definition calls_of (f : id -> id) (tr : list call) : list call := map (fun x => (x.1, rename f x.2)) tr.
Lemma together_own tr : forall h own h2 own2 rs, together tr h own = Some (h2, own2, rs) -> exists x, own2 = own ++ x.
Proof.
  induction tr as [|[c [E o]] tr IH]; intros h own h2 own2 rs H; cbn in H; [injection H as <- <- <-; exists []; by rewrite app_nil_r|].
  destruct (forallb _ _); [|done]. destruct (exec E o h) as [h1 r]. destruct r; try done;
    (destruct (together tr h1 _) as [[[h3 own3] rs3]|] eqn:Ht; [|done]); injection H as <- <- <-; destruct (IH _ _ _ _ _ Ht) as [x ->]; eexists; by rewrite <- app_assoc.
Qed.
Lemma rename_res_ext {A} (f g : A -> A) r : (forall a, r = Ok a -> f a = g a) -> rename_res f r = rename_res g r.
Proof. destruct r; cbn; intros H; [by rewrite H|done..]. Qed.
Lemma run_paired tr : Forall (fun x => ordered_by_keys x.2.1) tr -> forall h own hs h2 own2 rs, paired h own hs -> together tr h own = Some (h2, own2, rs) ->
  exists hs2, paired h2 own2 hs2 /\ forall c, alone (calls_of (rank own2 c) (of_client c tr)) (hs c) = Some (hs2 c, map (rename_res (option_map (rank own2 c))) (of_client c rs)).
Proof.
  induction 1 as [|[c [E o]] tr HE _ IH]; intros h own hs h2 own2 rs HP H; [cbn in H; injection H as <- <- <-; by exists hs|].
  cbn [together] in H. destruct (forallb _ (given o)) eqn:Hg; [|done].
  assert (Hgiv : forall i, In i (given o) -> own !! i = Some c) by (intros i Hi; rewrite forallb_forall in Hg; specialize (Hg i Hi); by apply bool_decide_eq_true_1 in Hg).
  assert (Hd : (exec E o h).2 <> Diverge) by (intros Hd; destruct (exec E o h) as [h1 r]; cbn in Hd; by subst r).
  destruct (step_paired E HE c o h own hs HP Hgiv Hd) as [HR HP1].
  assert (HT : exists rs1, together tr (exec E o h).1 (own ++ repeat c (h_next (exec E o h).1 - h_next h)) = Some (h2, own2, rs1) /\ rs = (c, (exec E o h).2) :: rs1)
    by (destruct (exec E o h) as [h1 r]; cbn [fst snd] in *; destruct r; try done; (destruct (together tr h1 _) as [[[h3 own3] rs3]|] eqn:Ht; [|done]); injection H as <- <- <-; eauto).
  destruct HT as (rs1 & HT & ->). destruct (IH _ _ _ _ _ _ HP1 HT) as (hs2 & HP2 & HA). exists hs2. split; [done|]. intros x. specialize (HA x). destruct (together_own _ _ _ _ _ _ HT) as [y Hy].
  set (own1 := own ++ repeat c (h_next (exec E o h).1 - h_next h)) in *. unfold of_client. rewrite !filter_cons. cbn [fst]. destruct (decide (c = x)) as [->|Hx]; rewrite ?bool_decide_eq_true_2, ?bool_decide_eq_false_2 in HA by done; [|exact HA].
  cbn [map calls_of fst snd alone].
  assert (Hren : rename (rank own2 x) o = rename (rank own x) o).
  { apply rename_ext. intros i Hi. rewrite Hy. subst own1. rewrite <- app_assoc. apply rank_app. apply Hgiv, lookup_lt_Some in Hi. lia. }
  rewrite Hren.
  assert (Hres : (exec E (rename (rank own x) o) (hs x)).2 = rename_res (option_map (rank own2 x)) (exec E o h).2).
  { rewrite HR. apply rename_res_ext. intros [a|] Ha; [|done]. cbn. f_equal. rewrite Hy. symmetry. apply rank_app.
    pose proof HP1 as [HN1 _]. destruct HP as [HN HP]. destruct (HP x) as [_ HAx]. destruct (sim_exec E HE (belongs own x) (rank own x) o (fun i Hi => conj (Hgiv i Hi) eq_refl) h (hs x) HAx) as [[D _]|(R1 & A1 & G1 & Hr)]; [done|].
    rewrite Ha in Hr. destruct (exec E (rename (rank own x) o) (hs x)).2 as [[b|]| | |]; try done; inversion Hr as [? ? Hab|]; subst. apply (al_lt _ _ _ A1) in Hab as [Hab _]. rewrite <- HN1. lia. }
  unfold of_client, calls_of in *. destruct (exec E (rename (rank own x) o) (hs x)) as [h1' r']. cbn [fst snd] in *. subst r'.
  rewrite HA. destruct ((exec E o h).2); cbn in *; [injection Hres as ->|..]; done.
Qed.
