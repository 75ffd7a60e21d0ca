(** * C07: writing back the value that was read *)
From Coq Require Import Lia.
From Verif Require Import SpecText SpecTree ProofText ProofAttr History ProofInv ProofSteps ProofOps ProofTree ProofElem PropText.

(** Whether [set_value] returns depends on the owner document only; then the attribute stores exactly the given text. *)
Lemma set_value_does h a n v : Inv h -> h_nodes h !! a = Some n -> n_type n = NAttribute ->
  exists d, n_owner n = Some d /\
  ((alive h d = true /\ exists h', attr_set_value a v h = (h', Ok tt) /\ stored_text h' a v) \/
   (alive h d = false /\ exists h' p, attr_set_value a v h = (h', Panic p))).
Proof.
  intros HI Hn Ht. destruct (owner_some h a n HI Hn ltac:(congruence) ltac:(congruence)) as (d & Ho & Hlt & Hdt). exists d. split; [done|].
  set (h1 := upd a (set_children [] n) h).
  assert (Hn1 : h_nodes h1 !! a = Some (set_children [] n)) by apply lookup_upd.
  assert (Hal : alive h1 d = alive h d).
  { unfold alive, h1. destruct (decide (d = a)) as [->|Hne]; [by rewrite lookup_upd, Hn|by rewrite lookup_upd_ne]. }
  unfold attr_set_value, attr_unset_value. rewrite (bind_modifyM _ _ n) by done. fold h1.
  destruct (alive h d) eqn:Hd.
  2:{ right. split; [done|]. exists h1, PUnwrap. unfold bind at 1, lift, owner_document. rewrite (get_node_some _ _ _ Hn1). cbn [rbind set_children n_owner]. rewrite Ho. cbn [upgrade]. by rewrite Hal. }
  left. split; [done|]. rewrite (bind_read _ d).
  2:{ unfold owner_document. rewrite (get_node_some _ _ _ Hn1). cbn [rbind set_children n_owner]. rewrite Ho. cbn [upgrade]. by rewrite Hal. }
  apply alive_true in Hd as [nd Hnd]. specialize (Hdt nd Hnd). assert (Hda : d <> a) by congruence.
  assert (Hnd1 : h_nodes h1 !! d = Some nd) by (unfold h1; by rewrite lookup_upd_ne).
  rewrite (bind_node _ nd) by done. apply is_type_true in Hdt as ->. cbn [negb]. set (t := h_next h1). set (nt := new_text d v). set (h2 := allocd nt h1).
  assert (Hta : t <> a) by (pose proof (inv_lt h HI a n Hn); unfold t; cbn; lia). assert (Htd : t <> d) by (pose proof (inv_lt h HI d nd Hnd); unfold t; cbn; lia).
  rewrite (bind_ok _ _ h1 h2 t) by done.
  assert (Hn2 : h_nodes h2 !! a = Some (set_children [] n)) by (unfold h2; cbn; by rewrite lookup_insert_ne).
  assert (Hd2 : h_nodes h2 !! d = Some nd) by (unfold h2; cbn; by rewrite lookup_insert_ne).
  assert (Ht2 : h_nodes h2 !! t = Some nt) by (unfold h2; cbn; apply lookup_insert).
  set (nt' := set_owner (n_owner (set_children [] n)) (set_parent (Some a) nt)).
  set (h3 := upd t nt' h2). set (h4 := upd a (set_children [t] n) h3).
  assert (Hins : append_child a t h2 = (h4, Ok t)).
  { unfold append_child, insert_before. rewrite (bind_node _ _ _ _ Hn2), (bind_node _ _ _ _ Ht2). cbn [set_children n_type].
    replace (is_child_allowed (n_type n) (n_type nt)) with true by (by rewrite Ht). cbn [negb].
    assert (Hnd' : is_type NDocument (set_children [] n) = false) by (unfold is_type; cbn; by rewrite Ht).
    rewrite Hnd'. cbn [andb]. rewrite !bind_ret.
    rewrite (bind_read _ tt).
    2:{ unfold check_same_document. rewrite (get_node_some _ _ _ Hn2), (get_node_some _ _ _ Ht2). cbn [rbind]. rewrite Hnd'. cbn [set_children n_owner]. rewrite Ho.
        assert (Hup : upgrade h2 (Some d) = Some d) by (apply upgrade_some; eauto). change (n_owner nt) with (Some d). rewrite Hup. cbn [unwrap_opt rbind]. rewrite Hup. cbn [unwrap_opt rbind]. by destruct (bool_decide_reflect (d = d)). }
    rewrite (bind_read _ None).
    2:{ unfold parent_node. rewrite (get_node_some _ _ _ Ht2). cbn. done. }
    rewrite bind_ret, bool_decide_false by congruence. rewrite (bind_modifyM _ _ nt) by done.
    replace (is_type NDocumentFragment nt) with false by done. unfold insert_or_append.
    assert (Hn3 : h_nodes h3 !! a = Some (set_children [] n)) by (unfold h3; by rewrite lookup_upd_ne).
    fold nt'. fold h3. rewrite bind_assoc, (bind_node _ _ _ _ Hn3), (bind_modifyM _ _ _ _ _ Hn3). done. }
  rewrite (bind_ok _ _ _ _ _ Hins). exists h4. split; [done|].
  exists (set_children [t] n), [v]. split; [apply lookup_upd|]. split; [done|]. split; [|cbn; by rewrite app_nil_r].
  constructor; [|constructor]. exists nt'. split; [unfold h4; rewrite lookup_upd_ne by done; apply lookup_upd|]. left. split; [by left|done].
Qed.

(** Characters that do not survive being stored: white space other than the space, the other line ends, and the percent sign. *)
Definition fragile (c : N) : Prop := c = 9%N \/ c = 10%N \/ c = 13%N \/ c = 0x85%N \/ c = 0x2028%N \/ c = 37%N.
Lemma value_back E h a v : wf_env E -> attr_value E h a = Ok (Some v) -> exists t, escaped t v /\ trimmed t t.
Proof.
  intros W H. unfold attr_value in H. destruct (get_node h a) as [n| | |]; try done. cbn [rbind] in H. destruct (is_nil (n_children n)); [done|].
  destruct (attr_text h (n_children n)) as [raw| | |]; try done. cbn [rbind] in H. change entity_fuel with (S 63) in H.
  destruct (expands_or_blocked E W (normalize_eol raw)) as [[t Hx]|Hx].
  - rewrite (normalize_expands E W h a 63 false raw t Hx) in H. cbn [rbind] in H. injection H as <-. exists (trim_matches 32 t). split; [apply escape_escaped|].
    destruct (trim_matches_spec t) as (p & q & _ & _ & _ & H1 & H2). exists [], []. split; [by rewrite app_nil_r|]. split; [constructor|]. split; [constructor|]. done.
  - destruct (normalize_blocked E W h a 63 false raw Hx) as [p Hp]. by rewrite Hp in H.
Qed.
(** The value comes back, in every state with that value and however the hash maps are ordered. *)
Theorem C07_stable : forall E E' h h' a v, wf_env E -> wf_env E' -> reachable h -> node_type_of h a = Ok NAttribute ->
  attr_value E h a = Ok (Some v) -> (forall c, In c (SpecText.decode v) -> ~ fragile c) -> attr_set_value a v h = (h', Ok tt) ->
  attr_value E' h' a = Ok (Some v).
Proof.
  intros E E' h h' a v HE HE' Hr (n & Hn & Ht)%node_type_ok Hv Hf Hs. pose proof (reachable_inv h Hr) as HI.
  destruct (set_value_does h a n v HI Hn Ht) as (d & _ & [(_ & h1 & Hs' & Hst)|(_ & h1 & p & Hs')]); rewrite Hs in Hs'; [|done]. injection Hs' as <-.
  destruct (value_back E h a v HE Hv) as (t & Het & Htt). rewrite (decode_escaped t v Het) in Hf.
  assert (Hl : normalize_eol v = v).
  { apply normalize_eol_id, List.Forall_forall. intros c Hc. destruct (escaped_in t v c Het Hc) as [Hin|Hlt]; [|repeat split; lia]. specialize (Hf c Hin). unfold fragile in Hf. tauto. }
  assert (Hx : expands E' v t).
  { apply (escaped_expands E' HE'); [done| |intros H; apply (Hf _ H); unfold fragile; tauto]. apply List.Forall_forall. intros c Hc Hw. apply (Hf c Hc). unfold fragile, white in *. tauto. }
  rewrite <- Hl in Hx. rewrite (attr_value_expands E' HE' h' a v t Hst Hx). rewrite (trimmed_fun _ _ _ (trim_matches_spec t) Htt). by rewrite (escaped_fun _ _ _ (escape_escaped t) Het).
Qed.
Print Assumptions C07_stable.
(** Writing back fails only when the owner document was dropped, and then by a panic. *)
Theorem C07_set_value_returns : forall h a v, reachable h -> node_type_of h a = Ok NAttribute ->
  exists d, owner_link h a = Some d /\
  (alive h d = true -> exists h', attr_set_value a v h = (h', Ok tt)) /\ (alive h d = false -> exists h' p, attr_set_value a v h = (h', Panic p)).
Proof.
  intros h a v Hr (n & Hn & Ht)%node_type_ok. destruct (set_value_does h a n v (reachable_inv h Hr) Hn Ht) as (d & Ho & Hc). exists d. split; [unfold owner_link; by rewrite Hn|].
  destruct Hc as [(Hd & h' & Hs & _)|(Hd & h' & p & Hs)]; rewrite Hd; (split; [intros ?; try done; eauto|intros ?; try done; eauto]).
Qed.
Print Assumptions C07_set_value_returns.
(** ** Examples *)
Definition ex_back_ops : list op :=
  [OCreateDocument None None None options_new; OCreateAttributeWith 0 (lit "a") (lit " x &#60; 'y' &#38;amp; "); OCreateAttributeWith 0 (lit "b") (lit "50&#37;off;");
   OCreateAttributeWith 0 (lit "c") (lit "&#10;line&#9;two"); OCreateAttributeWith 0 (lit "d") (lit "a&#x85;b")].
Definition ex_back : heap := default empty_heap (run env0 ex_back_ops empty_heap).
Example ex_back_reachable : reachable ex_back.
Proof. apply (run0_reachable ex_back_ops). by vm_compute. Qed.
Example C07_example : let v := lit "x &#60; &#39;y&#39; &#38;amp;" in attr_value env0 ex_back 2 = Ok (Some v) /\ SpecText.decode v = lit "x < 'y' &amp;" /\
  (attr_set_value 2 v ex_back).2 = Ok tt /\ attr_value env0 (attr_set_value 2 v ex_back).1 2 = Ok (Some v).
Proof. by vm_compute. Qed.
(** The excluded characters do change or stop the reading: a percent sign makes it panic, a line end and a tab become spaces (which are trimmed
    at the ends), and NEL becomes a line feed and so a space. *)
Theorem C07_percent_refuted : exists h h' a v, reachable h /\ attr_value env0 h a = Ok (Some v) /\ attr_set_value a v h = (h', Ok tt) /\ attr_value env0 h' a = Panic PExplicit.
Proof. exists ex_back, (attr_set_value 4 (lit "50%off;") ex_back).1, 4%nat, (lit "50%off;"). split; [exact ex_back_reachable|]. by vm_compute. Qed.
Print Assumptions C07_percent_refuted.
Theorem C07_white_refuted : exists h h' a v w, reachable h /\ attr_value env0 h a = Ok (Some v) /\ attr_set_value a v h = (h', Ok tt) /\ attr_value env0 h' a = Ok (Some w) /\ w <> v /\ (length w < length v)%nat.
Proof.
  pose (v := (10%N :: lit "line" ++ 9%N :: lit "two")). exists ex_back, (attr_set_value 6 v ex_back).1, 6%nat, v, (lit "line two"). split; [exact ex_back_reachable|].
  split; [by vm_compute|]. split; [by vm_compute|]. split; [by vm_compute|]. split; [done|]. vm_compute. lia.
Qed.
Print Assumptions C07_white_refuted.
Theorem C07_line_end_refuted : exists h h' a v, reachable h /\ attr_value env0 h a = Ok (Some v) /\ attr_set_value a v h = (h', Ok tt) /\ attr_value env0 h' a = Ok (Some (lit "a b")) /\ v = [97; 0x85; 98]%N.
Proof. exists ex_back, (attr_set_value 8 [97; 0x85; 98]%N ex_back).1, 8%nat, [97; 0x85; 98]%N. split; [exact ex_back_reachable|]. by vm_compute. Qed.
Print Assumptions C07_line_end_refuted.
