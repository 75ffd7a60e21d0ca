(** * C66, C67: conversions, and the outcome of every read *)
From Coq Require Import Lia.
From Verif Require Import SpecAccess ProofText ProofData ProofAttr ProofName ProofInv ProofSteps ProofOps ProofTree ProofElem ProofWalk ProofShow ProofErr
  PropText PropName PropData PropTree PropElem PropNs PropLoop.

#[local] Opaque normalize_attribute_value.

(** ** C66: conversions *)
Lemma has_interface_dec t T : {has_interface t T} + {~ has_interface t T}.
Proof. destruct t, T; first [left; constructor|right; abstract (intros H; inversion H)]. Defined.
Lemma is_trait_spec T h i n : h_nodes h !! i = Some n -> is_trait T h i = Ok (if has_interface_dec (n_type n) T then true else false).
Proof. intros Hn. destruct T; cbn [is_trait]; unfold is_f, is_char_data; rewrite (get_node_some _ _ _ Hn); cbn [rbind]; by destruct (n_type n). Qed.
Lemma as_trait_spec T h i n : h_nodes h !! i = Some n -> as_trait T h i = if has_interface_dec (n_type n) T then Ok i else Err InvalidState.
Proof. intros Hn. destruct T; cbn [as_trait]; unfold as_f, as_char_data; rewrite (get_node_some _ _ _ Hn); cbn [rbind]; by destruct (n_type n). Qed.

Theorem C66_is : forall T h i t, node_type_of h i = Ok t ->
  exists b, is_trait T h i = Ok b /\ (b = true <-> has_interface t T).
Proof.
  intros T h i t (n & Hn & <-)%node_type_ok. rewrite (is_trait_spec T h i n Hn). eexists. split; [done|]. by destruct (has_interface_dec _ _).
Qed.
Print Assumptions C66_is.
Theorem C66_as : forall T h i t, node_type_of h i = Ok t ->
  (has_interface t T -> as_trait T h i = Ok i) /\ (~ has_interface t T -> as_trait T h i = Err InvalidState).
Proof. intros T h i t (n & Hn & <-)%node_type_ok. rewrite (as_trait_spec T h i n Hn). by destruct (has_interface_dec _ _). Qed.
Print Assumptions C66_as.

(** A conversion that succeeds, or fails, goes on doing so while the node exists. *)
Theorem C66_stable : forall T h h' i, reachable h -> later h h' -> alive h i = true -> alive h' i = true ->
  is_trait T h' i = is_trait T h i /\ as_trait T h' i = as_trait T h i.
Proof.
  intros T h h' i Hr Hl (n & Hn)%alive_true (n' & Hn')%alive_true. destruct (C24_identity h h' i n n' Hr Hl Hn Hn') as (Ht & _).
  by rewrite !(is_trait_spec T _ i _ Hn), !(is_trait_spec T _ i _ Hn'), !(as_trait_spec T _ i _ Hn), !(as_trait_spec T _ i _ Hn'), Ht.
Qed.
Print Assumptions C66_stable.
(** The calls a history may contain are those whose receiver converts to the trait of the call.  [Text::split]
    is generous: it is admitted on everything that has [CharacterData]. *)
Theorem C66_typed : forall h o, typed_op h o = true <->
  forall i T, called_on o = Some (i, T) -> as_trait T h i = Ok i.
Proof.
  assert (H : forall h i T (p : node_type -> bool), (forall t, p t = true <-> has_interface t T) ->
    (match h_nodes h !! i with Some n => p (n_type n) | None => false end = true <-> forall j U, Some (i, T) = Some (j, U) -> as_trait U h j = Ok j)).
  { intros h i T p Hp. split.
    - intros Hm j U [= <- <-]. destruct (h_nodes h !! i) as [n|] eqn:Hn; [|done]. rewrite (as_trait_spec T h i n Hn). apply Hp in Hm. by destruct (has_interface_dec _ _).
    - intros Ha. specialize (Ha i T eq_refl). destruct (h_nodes h !! i) as [n|] eqn:Hn.
      + rewrite (as_trait_spec T h i n Hn) in Ha. apply Hp. by destruct (has_interface_dec _ _).
      + exfalso. destruct T; cbn [as_trait] in Ha; unfold as_f, as_char_data, get_node in Ha; by rewrite Hn in Ha. }
  assert (HC : forall t, type_eqb NText t || type_eqb NCData t || type_eqb NComment t = true <-> has_interface t TCharacterData).
  { intros t. destruct t; cbn; split; try done; intros Hq; first [constructor|inversion Hq]. }
  assert (HO : forall T t0, (forall t, has_interface t T <-> t = t0) -> forall t, type_eqb t0 t = true <-> has_interface t T).
  { intros T t0 Hu t. rewrite Hu. unfold type_eqb. rewrite bool_decide_eq_true. split; congruence. }
  intros h o. destruct o; cbn [typed_op called_on]; try (by split);
    try (apply H; apply HO; intros t'; split; [by intros Hq; inversion Hq|intros ->; constructor]).
  2-6: by apply (H h i TCharacterData (fun t => type_eqb NText t || type_eqb NCData t || type_eqb NComment t)).
  destruct dt as [t|]; [|by split]. apply H, HO. intros t'; split; [by intros Hq; inversion Hq|intros ->; constructor].
Qed.
Print Assumptions C66_typed.

(** A document, its root element, a text, a comment and an attribute. *)
Definition ex_access_ops : list op :=
  [OCreateDocument None (Some (lit "r")) None options_new; OCreateText 0 (104%N :: 233%N :: lit "llo"); OCreateComment 0 (lit "c");
   OCreateAttributeWith 0 (lit "a") (lit "x &amp; y"); OSetAttributeNode 1 5; OCreateAttribute 0 (lit "b"); OSetAttributeNode 1 6].
Definition ex_access : heap := default empty_heap (run env0 ex_access_ops empty_heap).
Example ex_access_reachable : reachable ex_access.
Proof. apply (run0_reachable ex_access_ops). by vm_compute. Qed.
Example C66_example : is_trait TCharacterData ex_access 2 = Ok true /\ is_trait TText ex_access 3 = Ok false /\ as_trait TComment ex_access 3 = Ok 3 /\
  as_trait TNamespaced ex_access 0 = Err InvalidState /\ as_trait TDocumentDecl ex_access 0 = Ok 0 /\ typed_op ex_access (OSplit 3 0) = true /\
  typed_op ex_access (OSetAttribute 2 (lit "a") (lit "b")) = false.
Proof. by vm_compute. Qed.

(** ** C67: reads *)
Lemma readable_or_not E h a n : wf_env E -> Inv h -> h_nodes h !! a = Some n ->
  (exists v, attr_value E h a = Ok v) /\ ~ unreadable E h a \/ (exists p, attr_value E h a = Panic p) /\ unreadable E h a.
Proof.
  intros W HI Hn. destruct (n_children n) as [|c cs] eqn:Hc.
  { left. split; [exists None; unfold attr_value; rewrite (get_node_some _ _ _ Hn); cbn [rbind]; by rewrite Hc|].
    intros (raw & p & r & (n' & parts & Hn' & Hne & _) & _). congruence. }
  assert (Hs : exists raw, stored_text h a raw).
  { assert (Hp : exists parts, Forall2 (child_text h) (n_children n) parts).
    { assert (Hal : forall c, In c (n_children n) -> exists nc, h_nodes h !! c = Some nc).
      { intros c' Hin. eapply inv_child_alive; [done|]. exists (n_children n). split; [by apply child_nodes_some|done]. }
      clear -Hal. induction (n_children n) as [|c l IH]; [by exists []|]. destruct IH as [ps Hps]; [intros; apply Hal; by right|].
      destruct (Hal c) as [nc Hnc]; [by left|]. destruct (decide (n_type nc = NText \/ n_type nc = NEntityReference)) as [Hd|Hd].
      - exists (default [] (n_value nc) :: ps). constructor; [|done]. exists nc. split; [done|]. by left.
      - exists ([] :: ps). constructor; [|done]. exists nc. split; [done|]. right. tauto. }
    destruct Hp as [parts Hp]. exists (concat parts), n, parts. split; [done|]. split; [by rewrite Hc|]. done. }
  destruct Hs as [raw Hs]. destruct (expands_or_blocked E W (normalize_eol raw)) as [[t Ht]|Hb].
  - left. pose proof (attr_value_expands E W h a raw t Hs Ht) as Hv. split; [by eauto|]. intros (raw' & p & r & Hs' & Hr & Hbad).
    destruct (attr_value_blocked E W h a raw' Hs') as [q Hq]; [by eapply bad_anywhere_blocked|]. congruence.
  - right. split; [by eapply attr_value_blocked|]. apply (blocked_bad E) in Hb as (p & r & He & Hbad).
    pose proof (bad_head E r Hbad) as (c' & q & -> & Hc').
    destruct (line_ends_split_back _ _ (normalize_eol_spec raw) p q c' He Hc') as (p' & q' & -> & Hq).
    eexists _, p', _. split; [exact Hs|]. split; [reflexivity|]. eapply bad_back; [exact W|exact Hq|done].
Qed.

(** The outcome of a read, in one of three ways. *)
Definition outcome E h q : Prop :=
  faulty E h q /\ (exists p, ask E h q = Panic p)
  \/ (exists e, denied E h q e /\ ask E h q = Err e)
  \/ (exists a, ask E h q = Ok a) /\ ~ faulty E h q /\ forall e, ~ denied E h q e.
Lemma simple_ok E h q : (exists a, ask E h q = Ok a) -> ~ faulty E h q -> (forall e, ~ denied E h q e) -> outcome E h q.
Proof. intros. right. by right. Qed.

Lemma name_of_wide s : wide_fault s -> exists p, name_from_str s = Panic p.
Proof. apply C10_panics_iff. Qed.
Lemma name_diverge s : name_from_str s <> Diverge.
Proof. destruct (name_from_str_spec s) as [(n & -> & _)|[[-> _]|[[-> _]|[-> _]]]]; done. Qed.
Lemma name_ns_cases u s : name_new_ns u s <> Diverge /\ ((exists p, name_new_ns u s = Panic p) <-> wide_fault s).
Proof.
  rewrite <- C10_panics_iff. unfold name_new_ns. pose proof (name_diverge s). destruct (name_from_str s) as [n|e|p|]; cbn [rbind]; try done.
  unfold check_namespace_uri. split; [|split; [|by intros [? [=]]]].
    - repeat match goal with |- context [if ?b then _ else _] => destruct b end; done.
    - intros [p Hp]. repeat match type of Hp with context [if ?b then _ else _] => destruct b end; done.
Qed.
Lemma attr_node_cases E h i n s : h_nodes h !! i = Some n ->
  (exists p, get_attribute_node E h i s = Panic p) /\ node_type_of h i = Ok NElement /\ wide_fault s
  \/ (exists a, get_attribute_node E h i s = Ok a) /\ ~ (node_type_of h i = Ok NElement /\ wide_fault s).
Proof.
  intros Hn. unfold get_attribute_node, node_type_of. rewrite (get_node_some _ _ _ Hn). cbn [rbind]. unfold is_type, type_eqb. destruct (decide (n_type n = NElement)) as [Ht|Ht].
  - rewrite Ht. cbn. pose proof (name_diverge s). pose proof (C10_panics_iff s) as HP. destruct (name_from_str s) as [nm|e|p|]; [right|right|left|done].
    + split; [eauto|]. intros [_ Hw]. apply HP in Hw as [? [=]].
    + split; [eauto|]. intros [_ Hw]. apply HP in Hw as [? [=]].
    + split; [eauto|]. split; [done|]. apply HP. eauto.
  - rewrite bool_decide_eq_false_2 by done. right. split; [eauto|]. intros [[=] _]. done.
Qed.
Lemma attr_node_ns_cases E h i n u s : h_nodes h !! i = Some n ->
  (exists p, get_attribute_node_ns E h i u s = Panic p) /\ node_type_of h i = Ok NElement /\ wide_fault s
  \/ (exists a, get_attribute_node_ns E h i u s = Ok a) /\ ~ (node_type_of h i = Ok NElement /\ wide_fault s).
Proof.
  intros Hn. unfold get_attribute_node_ns, node_type_of. rewrite (get_node_some _ _ _ Hn). cbn [rbind]. unfold is_type, type_eqb. destruct (decide (n_type n = NElement)) as [Ht|Ht].
  - rewrite Ht. cbn. destruct (name_ns_cases u s) as [Hd HP]. destruct (name_new_ns u s) as [nm|e|p|]; [right|right|left|done].
    + split; [eauto|]. intros [_ Hw]. apply HP in Hw as [? [=]].
    + split; [eauto|]. intros [_ Hw]. apply HP in Hw as [? [=]].
    + split; [eauto|]. split; [done|]. apply HP. eauto.
  - rewrite bool_decide_eq_false_2 by done. right. split; [eauto|]. intros [[=] _]. done.
Qed.
Lemma has_attr_cases E h i s : (exists p, has_attribute h i s = Panic p) <-> exists p, get_attribute_node E h i s = Panic p.
Proof. unfold has_attribute, get_attribute_node. destruct (get_node h i) as [n| | |]; cbn [rbind]; [|naive_solver..]. destruct (is_type NElement n), (name_from_str s); naive_solver. Qed.
Lemma has_attr_ok E h i s : (exists b, has_attribute h i s = Ok b) <-> exists a, get_attribute_node E h i s = Ok a.
Proof. unfold has_attribute, get_attribute_node. destruct (get_node h i) as [n| | |]; cbn [rbind]; [|naive_solver..]. destruct (is_type NElement n), (name_from_str s); naive_solver. Qed.
Lemma has_attr_ns_cases E h i u s : (exists p, has_attribute_ns h i u s = Panic p) <-> exists p, get_attribute_node_ns E h i u s = Panic p.
Proof. unfold has_attribute_ns, get_attribute_node_ns. destruct (get_node h i) as [n| | |]; cbn [rbind]; [|naive_solver..]. destruct (is_type NElement n), (name_new_ns u s); naive_solver. Qed.
Lemma has_attr_ns_ok E h i u s : (exists b, has_attribute_ns h i u s = Ok b) <-> exists a, get_attribute_node_ns E h i u s = Ok a.
Proof. unfold has_attribute_ns, get_attribute_node_ns. destruct (get_node h i) as [n| | |]; cbn [rbind]; [|naive_solver..]. destruct (is_type NElement n), (name_new_ns u s); naive_solver. Qed.

Lemma value_outcome E h o : wf_env E -> Inv h -> (forall a, o = Some a -> exists na, h_nodes h !! a = Some na /\ n_type na = NAttribute) ->
  (exists v, value_of_attribute_node E h o = Ok v) /\ (forall a, o = Some a -> ~ unreadable E h a)
  \/ (exists p, value_of_attribute_node E h o = Panic p) /\ exists a, o = Some a /\ unreadable E h a.
Proof.
  intros HE HI Ho. destruct o as [a|]; [|left; split; [by eexists|done]]. destruct (Ho a eq_refl) as (na & Hna & Ht). cbn [value_of_attribute_node].
  rewrite (get_node_some _ _ _ Hna). cbn [rbind]. unfold is_type, type_eqb. rewrite Ht, bool_decide_eq_true_2 by done.
  destruct (readable_or_not E h a na HE HI Hna) as [[Hv Hu]|[Hv Hu]]; [left|right]; split; [done| |done|by exists a]. by intros a' [= <-].
Qed.
Lemma found_attr E h i n (p : Name * id -> bool) attrs nss a : wf_env E -> Inv h -> h_nodes h !! i = Some n -> is_type NElement n = true -> n_ext n = XElement attrs nss ->
  option_map snd (find_first p (e_ord_attr E attrs)) = Some a -> exists na, h_nodes h !! a = Some na /\ n_type na = NAttribute.
Proof.
  intros HE HI Hn Ht Hx Hf. destruct (find_first p (e_ord_attr E attrs)) as [[k a']|] eqn:Hff; [|done]. cbn in Hf. injection Hf as ->.
  assert (Hin : In (k, a) (e_ord_attr E attrs)).
  { revert Hff. clear. induction (e_ord_attr E attrs) as [|x l IH]; [done|]. cbn. destruct (p x); [intros [= ->]; by left|]. intros H. right. by apply IH. }
  apply (In_perm _ _ _ (wf_ord_attr E HE attrs)) in Hin.
  destruct (attrs_inv h i n attrs HI Hn) with (k := k) (a := a) as (na & Hna & Hta & _); [|done|by eauto].
  unfold attributes. rewrite (get_node_some _ _ _ Hn). cbn. by rewrite Ht, Hx.
Qed.
Lemma got_attr E h i s a : wf_env E -> Inv h -> get_attribute_node E h i s = Ok (Some a) -> exists na, h_nodes h !! a = Some na /\ n_type na = NAttribute.
Proof.
  intros HE HI H. unfold get_attribute_node in H. destruct (get_node h i) as [n| | |] eqn:Hn; try done. apply get_node_ok in Hn. cbn [rbind] in H.
  destruct (is_type NElement n) eqn:Ht; [|done]. destruct (name_from_str s); try done. destruct (n_ext n) eqn:Hx; try done. injection H as H. by eapply found_attr.
Qed.
Lemma got_attr_ns E h i u s a : wf_env E -> Inv h -> get_attribute_node_ns E h i u s = Ok (Some a) -> exists na, h_nodes h !! a = Some na /\ n_type na = NAttribute.
Proof.
  intros HE HI H. unfold get_attribute_node_ns in H. destruct (get_node h i) as [n| | |] eqn:Hn; try done. apply get_node_ok in Hn. cbn [rbind] in H.
  destruct (is_type NElement n) eqn:Ht; [|done]. destruct (name_new_ns u s); try done. destruct (n_ext n) eqn:Hx; try done. injection H as H. by eapply found_attr.
Qed.
Lemma substring_outcome E h i n o k : h_nodes h !! i = Some n -> (o < usize_mod)%N -> (k < usize_mod)%N -> outcome E h (QSubstring i o k).
Proof.
  intros Hn Ho Hk.
  assert (HP : forall p, substring_data E h i o k = Panic p -> cut_fault E h i o k -> outcome E h (QSubstring i o k)).
  { intros p Hp Hc. left. split; [by constructor|]. exists p. cbn [ask]. by rewrite Hp. }
  assert (HE : forall e, substring_data E h i o k = Err e -> denied E h (QSubstring i o k) e -> outcome E h (QSubstring i o k)).
  { intros e He Hd. right. left. exists e. split; [done|]. cbn [ask]. by rewrite He. }
  assert (HK : forall v, substring_data E h i o k = Ok v -> ~ cut_fault E h i o k -> (forall e, ~ denied E h (QSubstring i o k) e) -> outcome E h (QSubstring i o k)).
  { intros v Hv Hc Hd. apply simple_ok; [exists (AStr v); cbn [ask]; by rewrite Hv| |done]. intros Hf. apply Hc. by inversion Hf. }
  assert (HU : forall v w, holds h i v -> holds h i w -> v = w) by (intros v w (? & ? & ?) (? & ? & ?); congruence).
  assert (HN : forall v, holds h i v -> holds_none h i -> False) by (intros v (? & ? & ?) (? & ? & ?); congruence).
  destruct (N.lt_ge_cases (o + k) usize_mod) as [Hf|Hf].
  - destruct (N.eq_0_gt_0_cases k) as [->|Hk0].
    { eapply HK; [by apply substring_zero| |].
      - intros [[H _]|(_ & H & _)]; lia.
      - intros e He. inversion He. lia. }
    destruct (n_value n) as [v|] eqn:Hv.
    + assert (Hh : holds h i v) by by exists n. destruct (C16_exhaustive v o k) as [->|[Hp|[(l & m & r & -> & Hl & Hm)|[(l & m & -> & Hne & Hl & Hm)|(Hlt & Hb)]]]]; [lia| | | |].
      * eapply HE; [by eapply substring_past|]. constructor; [by left|done|right; by exists v].
      * assert (Hlt : (o < blen (l ++ m ++ r))%N) by (rewrite !blen_app; lia).
        eapply HK; [subst o k; by eapply substring_slice_lt| |].
        -- intros [[H _]|(_ & _ & w & Hw & _ & Hcut)]; [lia|]. rewrite <- (HU _ _ Hh Hw) in Hcut. destruct Hcut as [Hcut|[_ Hcut]]; apply Hcut.
           ++ by exists l, (m ++ r).
           ++ exists (l ++ m), r. split; [by rewrite app_assoc|]. rewrite blen_app. lia.
        -- intros e He. inversion He as [|? ? ? _ _ Hde]; subst. destruct Hde as [Hde|(w & Hw & Hde)]; [by eapply HN|]. rewrite <- (HU _ _ Hh Hw) in Hde. lia.
      * assert (Hlt : (o < blen (l ++ m))%N) by (rewrite !blen_app; apply blen_pos in Hne; lia).
        eapply HK; [subst o; by eapply substring_clip| |].
        -- intros [[H _]|(_ & _ & w & Hw & _ & Hcut)]; [lia|]. rewrite <- (HU _ _ Hh Hw) in Hcut. destruct Hcut as [Hcut|[Hl2 _]].
           ++ apply Hcut. by exists l, m.
           ++ rewrite blen_app in Hl2. lia.
        -- intros e He. inversion He as [|? ? ? _ _ Hde]; subst. destruct Hde as [Hde|(w & Hw & Hde)]; [by eapply HN|]. rewrite <- (HU _ _ Hh Hw) in Hde. lia.
      * eapply HP; [by eapply substring_cut_panics|]. right. split; [done|]. split; [done|]. by exists v.
    + eapply HE; [eapply substring_no_value; [by exists n|done..]|]. constructor; [by left|done|left; by exists n].
  - destruct (e_checked E) eqn:Hc.
    { destruct (C19_checked_overflow E h i o k [] Hc Hf) as [Hs _]. eapply HP; [exact Hs|]. left. split; [done|by left]. }
    destruct (n_value n) as [v|] eqn:Hv.
    + assert (Hh : holds h i v) by by exists n. destruct (C19_unchecked_overflow E h i o k [] v Hc Ho Hk Hf Hh) as [H1 H2].
      destruct (N.lt_ge_cases o (blen v)) as [Hlt|Hge].
      * eapply HP; [by apply H1|]. left. split; [done|]. right. by exists v.
      * eapply HE; [by apply H2|]. constructor; [by right|lia|right; by exists v].
    + eapply HE; [|constructor; [by right|lia|left; by exists n]]. unfold substring_data, usize_add.
      destruct (N.ltb_spec (o + k) usize_mod); [lia|]. rewrite Hc. cbn [rbind].
      assert (Hm : ((o + k) mod usize_mod = o + k - usize_mod)%N).
      { symmetry. apply (N.mod_unique _ _ 1); lia. }
      rewrite Hm. destruct (N.eqb_spec (o + k - usize_mod) o); [lia|]. rewrite (get_node_some _ _ _ Hn). cbn [rbind]. by rewrite Hv.
Qed.
Lemma add_namespaces_ok h i n : h_nodes h !! i = Some n -> exists b, add_namespaces h i = Ok b.
Proof.
  intros Hn. unfold add_namespaces, owner_document. rewrite (get_node_some _ _ _ Hn). cbn [rbind]. destruct (n_owner n) as [d|]; cbn; [|by eexists].
  destruct (alive h d) eqn:Hd; [|by eexists]. apply alive_true in Hd as [nd Hd]. rewrite (get_node_some _ _ _ Hd). by eexists.
Qed.
Lemma sibling_ok h i n : h_nodes h !! i = Some n -> (exists r, previous_sibling h i = Ok r) /\ exists r, next_sibling h i = Ok r.
Proof.
  intros Hn. unfold previous_sibling, next_sibling. rewrite (get_node_some _ _ _ Hn). cbn [rbind]. destruct (is_type NAttribute n); [by eauto|].
  destruct (n_parent n) as [p|]; cbn; [|by eauto]. destruct (alive h p) eqn:Hp; [|by eauto]. apply alive_true in Hp as [np Hp]. rewrite (get_node_some _ _ _ Hp). cbn [rbind].
  destruct (position i (n_children np)) as [[|k]|]; eauto.
Qed.
Lemma ask_outcome E h q : wf_env E -> Inv h -> alive h (about q) = true -> walk q = false -> words_fit q -> outcome E h q.
Proof.
  intros HE HI (n & Hn)%alive_true Hw Hf.
  assert (HS : (exists a, ask E h q = Ok a) -> (forall T i, q <> QAs T i) -> (forall i o k, q <> QSubstring i o k) -> ~ faulty E h q -> outcome E h q).
  { intros Ha H1 H2 H3. apply simple_ok; [done|done|]. intros e He. inversion He; subst; [by eapply H1|by eapply H2]. }
  assert (HX : forall i n', h_nodes h !! i = Some n' -> (exists a b c d, n_ext n' = XDocument a b c d) <-> n_type n' = NDocument).
  { intros i n' Hn'. destruct (inv_node h HI i n' Hn') as (Hx & _). unfold ext_ok in Hx. split.
    - intros (a & b & c & d & Hq). rewrite Hq in Hx. by destruct Hx.
    - intros Ht. rewrite Ht in Hx. destruct (n_ext n'); try done; try (by destruct Hx). by eauto. }
  destruct (sibling_ok h _ _ Hn) as [[r1 Hs1] [r2 Hs2]]. destruct (add_namespaces_ok h _ _ Hn) as [b Hb].
  destruct q; try done; cbn [about] in *;
    try (apply HS; [|done|done|by intros Hq; inversion Hq]; cbn [ask];
         rewrite ?Hs1, ?Hs2;
         unfold node_name, node_value, node_type_of, parent_node, child_nodes, document_element, first_child, last_child, has_attributes, attributes, owner_document, has_child_nodes, is_supported,
           namespace_uri, local_name, prefix, specified, owner_element, length_, data, doc_type, get_element_by_id, xml_declaration, dt_entities, dt_notations, dt_public_id, dt_system_id, dt_internal_subset,
           ent_public_id, ent_system_id, ent_notation_name, not_public_id, not_system_id, tag_name, pi_target, pi_length, pi_data, node_value, contains_mapping, get_namespace, contains_mapped_namespace, get_prefix;
         unfold node_name, node_value, attributes; rewrite ?(is_trait_spec _ _ _ _ Hn), ?Hb, ?(get_node_some _ _ _ Hn); cbn [rbind ans]; try (by eexists); destruct (negb b); cbn; by eexists).
  - (* as *) destruct (has_interface_dec (n_type n) T) as [Hi|Hi].
    + apply simple_ok; cbn [ask]; rewrite ?(as_trait_spec T _ _ _ Hn).
      * destruct (has_interface_dec _ _); [by eexists|done].
      * intros Hq; inversion Hq.
      * intros e He. inversion He as [? ? t Ht Hni|]; subst. apply Hni. apply node_type_ok in Ht as (n' & Hn' & <-). congruence.
    + right. left. exists InvalidState. split; [econstructor; [unfold node_type_of; by rewrite (get_node_some _ _ _ Hn)|done]|].
      cbn [ask]. rewrite (as_trait_spec T _ _ _ Hn). by destruct (has_interface_dec _ _).
  - (* value *) destruct (readable_or_not E h i n HE HI Hn) as [[[v Hv] Hu]|[[p Hp] Hu]].
    + apply HS; [cbn [ask]; rewrite Hv; by eexists|done|done|]. intros Hq. by inversion Hq.
    + left. split; [by constructor|]. cbn [ask]. rewrite Hp. by eexists.
  - destruct Hf. by eapply substring_outcome.
  - (* implementation *) destruct (decide (n_type n = NDocument)) as [Ht|Ht].
    + apply HS; [|done|done|].
      * cbn [ask]. unfold implementation. rewrite (get_node_some _ _ _ Hn). cbn [rbind]. destruct (proj2 (HX i n Hn) Ht) as (? & ? & ? & ? & ->). by eexists.
      * intros Hq. inversion Hq as [| | | | | | | | | |? Hd]; subst. apply Hd. unfold node_type_of. rewrite (get_node_some _ _ _ Hn). cbn. by rewrite Ht.
    + left. split; [constructor; unfold node_type_of; rewrite (get_node_some _ _ _ Hn); by intros [=]|].
      cbn [ask]. unfold implementation. rewrite (get_node_some _ _ _ Hn). cbn [rbind]. destruct (n_ext n) eqn:Hx; try by eexists. destruct Ht. apply (HX i n Hn). by eauto.
  - (* get_attribute *) destruct (attr_node_cases E h i n name Hn) as [[[p Hp] [Ht Hwf]]|[[o Ho] Hno]].
    + left. split; [by constructor|]. cbn [ask]. unfold get_attribute. rewrite Hp. by eexists.
    + destruct (value_outcome E h o HE HI) as [[[v Hv] Hu]|[[p Hp] (a & -> & Hu)]]; [intros a ->; by eapply got_attr| |].
      * apply HS; [cbn [ask]; unfold get_attribute; rewrite Ho; cbn [rbind]; rewrite Hv; by eexists|done|done|].
        intros Hq. inversion Hq; subst; [by apply Hno|]. eapply Hu; [|done]. congruence.
      * left. split; [by eapply fa_get_value|]. cbn [ask]. unfold get_attribute. rewrite Ho. cbn [rbind]. rewrite Hp. by eexists.
  - destruct (attr_node_cases E h i n name Hn) as [[[p Hp] [Ht Hwf]]|[[o Ho] Hno]].
    + left. split; [by constructor|]. cbn [ask]. rewrite Hp. by eexists.
    + apply HS; [cbn [ask]; rewrite Ho; by eexists|done|done|]. intros Hq. inversion Hq; subst. by apply Hno.
  - destruct (attr_node_cases E h i n name Hn) as [[Hp [Ht Hwf]]|[Ho Hno]].
    + left. split; [by constructor|]. apply has_attr_cases in Hp as [p Hp]. cbn [ask]. rewrite Hp. by eexists.
    + apply HS; [apply has_attr_ok in Ho as [o Ho]; cbn [ask]; rewrite Ho; by eexists|done|done|]. intros Hq. inversion Hq; subst. by apply Hno.
  - destruct (attr_node_ns_cases E h i n uri local Hn) as [[[p Hp] [Ht Hwf]]|[[o Ho] Hno]].
    + left. split; [by constructor|]. cbn [ask]. unfold get_attribute_ns. rewrite Hp. by eexists.
    + destruct (value_outcome E h o HE HI) as [[[v Hv] Hu]|[[p Hp] (a & -> & Hu)]]; [intros a ->; by eapply got_attr_ns| |].
      * apply HS; [cbn [ask]; unfold get_attribute_ns; rewrite Ho; cbn [rbind]; rewrite Hv; by eexists|done|done|].
        intros Hq. inversion Hq; subst; [by apply Hno|]. eapply Hu; [|done]. congruence.
      * left. split; [by eapply fa_get_value_ns|]. cbn [ask]. unfold get_attribute_ns. rewrite Ho. cbn [rbind]. rewrite Hp. by eexists.
  - destruct (attr_node_ns_cases E h i n uri local Hn) as [[[p Hp] [Ht Hwf]]|[[o Ho] Hno]].
    + left. split; [by constructor|]. cbn [ask]. rewrite Hp. by eexists.
    + apply HS; [cbn [ask]; rewrite Ho; by eexists|done|done|]. intros Hq. inversion Hq; subst. by apply Hno.
  - destruct (attr_node_ns_cases E h i n uri local Hn) as [[Hp [Ht Hwf]]|[Ho Hno]].
    + left. split; [by constructor|]. apply has_attr_ns_cases in Hp as [p Hp]. cbn [ask]. rewrite Hp. by eexists.
    + apply HS; [apply has_attr_ns_ok in Ho as [o Ho]; cbn [ask]; rewrite Ho; by eexists|done|done|]. intros Hq. inversion Hq; subst. by apply Hno.
Qed.

(** Every read that stays at the node: exactly when it panics, exactly when it gives an error, and it always ends. *)
Theorem C67_panics : forall E h q, wf_env E -> reachable h -> alive h (about q) = true -> walk q = false -> words_fit q ->
  ((exists p, ask E h q = Panic p) <-> faulty E h q).
Proof.
  intros E h q HE Hr Ha Hw Hf. destruct (ask_outcome E h q HE (reachable_inv h Hr) Ha Hw Hf) as [[H1 [p Hp]]|[(e & H1 & He)|([a Hk] & H1 & _)]].
  - split; eauto.
  - split; [rewrite He; by intros [? [=]]|]. intros Hq. exfalso.
    inversion H1; subst; [by inversion Hq|]. inversion Hq as [| | | | | | | | |? ? ? Hc|]; subst. cbn [about] in *.
    assert (HU : forall v w, holds h i v -> holds h i w -> v = w) by (intros v w (? & ? & ?) (? & ? & ?); congruence).
    assert (HN : forall v, holds h i v -> holds_none h i -> False) by (intros v (? & ? & ?) (? & ? & ?); congruence).
    destruct Hc as [[Hov [Hc|(v & Hv & Hlt)]]|(Hov & _ & v & Hv & Hlt & _)].
    + destruct H as [H|H]; [lia|congruence].
    + destruct H2 as [H2|(w & Hw2 & Hle)]; [by eapply HN|]. rewrite (HU _ _ Hv Hw2) in Hlt. lia.
    + destruct H2 as [H2|(w & Hw2 & Hle)]; [by eapply HN|]. rewrite (HU _ _ Hv Hw2) in Hlt. lia.
  - split; [rewrite Hk; by intros [? [=]]|done].
Qed.
Print Assumptions C67_panics.
Theorem C67_errors : forall E h q e, wf_env E -> reachable h -> alive h (about q) = true -> walk q = false -> words_fit q ->
  (ask E h q = Err e <-> denied E h q e).
Proof.
  intros E h q e HE Hr Ha Hw Hf. destruct (ask_outcome E h q HE (reachable_inv h Hr) Ha Hw Hf) as [[H1 [p Hp]]|[(e' & H1 & He)|([a Hk] & _ & H1)]].
  - split; [by rewrite Hp|]. intros Hd. exfalso. destruct (proj2 (C67_panics E h q HE Hr Ha Hw Hf) H1) as [p' _].
    inversion H1; subst; try by inversion Hd. inversion Hd as [|? ? ? Hcc Hk0 Hde]; subst.
    assert (HU : forall v w, holds h i v -> holds h i w -> v = w) by (intros v w (? & ? & ?) (? & ? & ?); congruence).
    assert (HN : forall v, holds h i v -> holds_none h i -> False) by (intros v (? & ? & ?) (? & ? & ?); congruence).
    destruct H as [[Hov [Hc|(v & Hv & Hlt)]]|(Hov & _ & v & Hv & Hlt & _)].
    + destruct Hcc as [Hcc|Hcc]; [lia|congruence].
    + destruct Hde as [H2|(w & Hw2 & Hle)]; [by eapply HN|]. rewrite (HU _ _ Hv Hw2) in Hlt. lia.
    + destruct Hde as [H2|(w & Hw2 & Hle)]; [by eapply HN|]. rewrite (HU _ _ Hv Hw2) in Hlt. lia.
  - rewrite He. split; [by intros [= <-]|]. intros Hd. f_equal. inversion H1; subst; by inversion Hd.
  - rewrite Hk. split; [done|]. intros Hd. by destruct (H1 e).
Qed.
Print Assumptions C67_errors.
Theorem C67_returns : forall E h q, wf_env E -> reachable h -> alive h (about q) = true -> walk q = false -> words_fit q ->
  ask E h q <> Diverge /\ (~ faulty E h q -> (forall e, ~ denied E h q e) -> exists a, ask E h q = Ok a).
Proof.
  intros E h q HE Hr Ha Hw Hf. destruct (ask_outcome E h q HE (reachable_inv h Hr) Ha Hw Hf) as [[H1 [p Hp]]|[(e' & H1 & He)|([a Hk] & _ & H1)]].
  - rewrite Hp. by split.
  - rewrite He. split; [done|]. intros _ Hd. by destruct (Hd e').
  - rewrite Hk. by eauto.
Qed.
Print Assumptions C67_returns.

(** ** Walks *)
Lemma concat_res_panic {A B} (f : A -> res (list B)) l p : concat_res f l = Panic p -> exists x, In x l /\ f x = Panic p.
Proof.
  induction l as [|x l IH]; [done|]. cbn. destruct (f x) as [a| |q|] eqn:Hx; cbn; try done; [|intros [= ->]; exists x; split; [by left|done]].
  destruct (concat_res f l) as [b| |q|] eqn:Hl; cbn; try done. intros [= ->]. destruct IH as (y & Hy & Hfy); [done|]. exists y. split; [by right|done].
Qed.
Lemma fmt_list_panic {A} (f : A -> res str) l p : fmt_list f l = Panic p -> exists x, In x l /\ f x = Panic p.
Proof.
  unfold fmt_list. destruct (concat_res _ l) as [a| |q|] eqn:Hc; cbn; try done. intros [= ->]. apply concat_res_panic in Hc as (x & Hx & Hf). exists x. split; [done|]. destruct (f x) as [| |q'|]; try done. by injection Hf as ->.
Qed.
Lemma fmt_list_ok {A} (f : A -> res str) l s : fmt_list f l = Ok s -> forall x, In x l -> exists t, f x = Ok t.
Proof.
  unfold fmt_list. destruct (concat_res _ l) as [a| |q|] eqn:Hc; cbn; try done. intros _. revert a Hc. induction l as [|y l IH]; intros a Hc x Hx; [done|].
  cbn in Hc. destruct (f y) as [t| | |] eqn:Hy; cbn in Hc; try done. destruct (concat_res _ l) as [b| | |] eqn:Hl; cbn in Hc; try done. destruct Hx as [<-|Hx]; [by eauto|]. by eapply IH.
Qed.
Lemma errfree_search h p fuel i : errfree (search_elements fuel h p i).
Proof.
  revert i. induction fuel as [|k IH]; intros i; [done|]. cbn [search_elements]. apply errfree_bind; [apply errfree_node|]. intros n. destruct (is_type NElement n); [|done].
  apply errfree_bind; [|done]. apply errfree_concat. intros c. apply errfree_bind; [apply errfree_node|]. intros nc. by destruct (is_type NElement nc).
Qed.
Lemma search_no_panic h p fuel i q : Inv h -> alive h i = true -> search_elements fuel h p i <> Panic q.
Proof.
  intros HI. revert i. induction fuel as [|k IH]; intros i (n & Hn)%alive_true; [done|]. cbn [search_elements]. rewrite (get_node_some _ _ _ Hn). cbn [rbind]. destruct (is_type NElement n); [|done].
  destruct (concat_res _ (n_children n)) as [b| |q'|] eqn:Hc; try done. cbn. intros [= ->]. apply concat_res_panic in Hc as (c & Hin & Hf).
  destruct (inv_child_alive h i c HI) as [nc Hnc]; [exists (n_children n); split; [by apply child_nodes_some|done]|].
  rewrite (get_node_some _ _ _ Hnc) in Hf. cbn [rbind] in Hf. destruct (is_type NElement nc); [|done]. eapply IH; [|exact Hf]. apply alive_true. by eauto.
Qed.
Lemma aware_dec h i : alive h i = true -> aware h i \/ ~ aware h i.
Proof.
  intros (n & Hn)%alive_true. destruct (add_namespaces_ok h i n Hn) as [[] Hb].
  - left. unfold add_namespaces, owner_document in Hb. rewrite (get_node_some _ _ _ Hn) in Hb. cbn [rbind] in Hb. destruct (n_owner n) as [d|] eqn:Ho; [|done]. cbn in Hb.
    destruct (alive h d) eqn:Hd; [|done]. apply alive_true in Hd as [nd Hnd]. rewrite (get_node_some _ _ _ Hnd) in Hb. cbn [rbind] in Hb. injection Hb as Hb.
    destruct (n_ext nd) as [| |a b m o| | | |] eqn:Hx; try done. exists n, d, nd, a, b, m, o. done.
  - right. intros Haw. by rewrite (add_namespaces_true h i Haw) in Hb.
Qed.

Lemma prefix_maps_dec h i u : (exists p, maps h i p u) \/ ~ exists p, maps h i p u.
Proof.
  destruct (h_nodes h !! i) as [n|] eqn:Hj; [|right; intros (q & n' & a & nss' & Hn' & _); congruence].
  destruct (n_ext n) as [| | | |attrs nss| |] eqn:Hx; try (right; intros (q & n' & a & nss' & Hn' & Hx' & _); congruence).
  destruct (decide (u ∈ map snd nss)) as [Hin|Hin].
  - left. apply elem_of_list_In, in_map_iff in Hin as ([q v] & Hq & Hin). cbn in Hq. subst v. exists q, n, attrs, nss. done.
  - right. intros (q & n' & a & nss' & Hn' & Hx' & Hin'). apply Hin, elem_of_list_In, in_map_iff. exists (q, u). split; [done|]. congruence.
Qed.
Lemma go_up h P i n q (HI : Inv h) : h_nodes h !! i = Some n -> n_parent n = Some q -> alive h q = true -> ~ P i -> climbs h P q AtGone -> climbs h P i AtGone.
Proof.
  intros Hn Hp (nq & Hq)%alive_true HP Hc. eapply cl_up; [done| |exact Hc]. apply parent_node_some. exists n, nq. split_and!; try done.
  intros Ht. by rewrite (attr_no_parent h i n HI Hn Ht) in Hp.
Qed.
Lemma resolve_panic h i p fuel q : Inv h -> reachable h -> alive h i = true -> resolve_namespace_rec fuel h i p = Panic q ->
  aware h i /\ climbs h (fun j => exists u, maps h j p u) i AtGone.
Proof.
  intros HI Hr. revert i. induction fuel as [|k IH]; intros i Ha H; [done|]. cbn [resolve_namespace_rec] in H. destruct (aware_dec h i Ha) as [Haw|Haw].
  - apply alive_true in Ha as [n Hn]. rewrite (add_namespaces_true h i Haw) in H. cbn [rbind negb] in H. destruct (C45_own h i p Hr Haw) as (HA & HB & _).
    destruct (maps_dec h i p) as [[u Hu]|Hu]; [rewrite (proj2 (HA u) Hu) in H; done|].
    rewrite (proj2 HB) in H by (intros u Hq; apply Hu; by exists u). cbn [rbind] in H. rewrite (get_node_some _ _ _ Hn) in H. cbn [rbind] in H.
    destruct (n_parent n) as [r|] eqn:Hp; [|done]. split; [done|]. destruct (alive h r) eqn:Hal.
    + eapply go_up; [done..|]. by apply IH.
    + eapply cl_gone; try done. unfold alive in Hal. by destruct (h_nodes h !! r).
  - apply alive_true in Ha as [n Hn]. by rewrite (add_namespaces_false h i n Hn Haw) in H.
Qed.
Lemma resolve_prefix_panic E h i u fuel q : wf_env E -> Inv h -> reachable h -> alive h i = true -> resolve_prefix_rec fuel E h i u = Panic q ->
  aware h i /\ climbs h (fun j => exists p, maps h j p u) i AtGone.
Proof.
  intros HE HI Hr. revert i. induction fuel as [|k IH]; intros i Ha H; [done|]. cbn [resolve_prefix_rec] in H. destruct (aware_dec h i Ha) as [Haw|Haw].
  - apply alive_true in Ha as [n Hn]. rewrite (add_namespaces_true h i Haw) in H. cbn [rbind negb] in H. destruct (get_prefix_own E h i u HE HI Haw) as (r & Hg & Hpo). rewrite Hg in H. cbn [rbind] in H.
    destruct (prefix_maps_dec h i u) as [[pp Hu]|Hu].
    + destruct r; try done. exfalso. by apply (Hpo pp).
    + destruct r; try done. rewrite (get_node_some _ _ _ Hn) in H. cbn [rbind] in H. destruct (n_parent n) as [r|] eqn:Hp; [|done]. split; [done|]. destruct (alive h r) eqn:Hal.
      * eapply go_up; [done..|]. by apply IH.
      * eapply cl_gone; try done. unfold alive in Hal. by destruct (h_nodes h !! r).
  - apply alive_true in Ha as [n Hn]. by rewrite (add_namespaces_false h i n Hn Haw) in H.
Qed.
Lemma fmt_panic E h fuel i q : wf_env E -> Inv h -> alive h i = true -> fmt_node fuel E h i = Panic q -> walk_faulty E h (QToString i).
Proof.
  intros HE HI. revert i. induction fuel as [|k IH]; intros i (n & Hn)%alive_true H; [done|].
  cbn [fmt_node] in H. rewrite (get_node_some _ _ _ Hn) in H. cbn [rbind] in H.
  assert (Hty : node_type_of h i = Ok (n_type n)) by (unfold node_type_of; by rewrite (get_node_some _ _ _ Hn)).
  assert (Hnil : e_ord_attr E [] = []) by (apply Permutation_nil; symmetry; apply (wf_ord_attr E HE)).
  destruct (inv_node h HI i n Hn) as (Hx & _).
  assert (HA : forall a na, h_nodes h !! a = Some na -> fmt_attribute E h a = Panic q -> unreadable E h a).
  { intros a na Hna Hf. unfold fmt_attribute in Hf. rewrite (get_node_some _ _ _ Hna) in Hf. cbn [rbind] in Hf. destruct (readable_or_not E h a na HE HI Hna) as [[[v Hv] _]|[_ Hu]]; [|done]. by rewrite Hv in Hf. }
  assert (HC : In (n_type n) [NElement; NDocument; NDocumentFragment] -> fmt_list (fmt_node k E h) (n_children n) = Panic q -> walk_faulty E h (QToString i)).
  { intros Hin Hf. apply fmt_list_panic in Hf as (c & Hc & Hf). assert (Hch : child h i c) by (exists (n_children n); split; [by apply child_nodes_some|done]).
    destruct (inv_child_alive h i c HI Hch) as [nc Hnc]. assert (Hw : walk_faulty E h (QToString c)) by (apply IH; [apply alive_true; by eauto|done]).
    inversion Hw as [? j H1 H2 H3|? j at_ k' a H1 H2 H3 H4| |]; subst.
    - eapply wf_show_attr; [|done..]. by eapply sh_child.
    - eapply wf_show; [|done..]. by eapply sh_child. }
  destruct (n_type n) eqn:Ht.
  - destruct (attributes h i) as [attrs| | |] eqn:Ha; try (unfold attributes in Ha; by rewrite (get_node_some _ _ _ Hn) in Ha). cbn [rbind] in H.
    destruct (fmt_list _ (e_ord_attr E attrs)) as [s| |q'|] eqn:Hl; try done; cbn [rbind] in H.
    + destruct (fmt_list _ (n_children n)) as [s'| |q'|] eqn:Hl'; try done. cbn [rbind] in H. injection H as ->. apply HC; [by left|done].
    + injection H as ->. apply fmt_list_panic in Hl as ([k' a] & Hin & Hf). cbn [snd] in Hf. apply (In_perm _ _ _ (wf_ord_attr E HE attrs)) in Hin.
      destruct (attrs_inv h i n attrs HI Hn Ha _ _ Hin) as (na & Hna & Hta & _). eapply wf_show; [constructor|done..|]. destruct k as [|k]; [done|]. cbn [fmt_node] in Hf.
      rewrite (get_node_some _ _ _ Hna) in Hf. cbn [rbind] in Hf. rewrite Hta in Hf. apply (HA a na Hna). by destruct (fmt_attribute E h a).
  - eapply wf_show_attr; [constructor|done|]. by eapply HA.
  - unfold fmt_text, data in H. by rewrite (get_node_some _ _ _ Hn) in H.
  - unfold fmt_cdata, data in H. by rewrite (get_node_some _ _ _ Hn) in H.
  - done.
  - done.
  - done.
  - unfold fmt_comment, data in H. by rewrite (get_node_some _ _ _ Hn) in H.
  - unfold xml_declaration, doc_type in H. rewrite (get_node_some _ _ _ Hn) in H. cbn [rbind] in H. unfold ext_ok in Hx. rewrite Ht in Hx.
    destruct (n_ext n) as [| |decl dt m o| | | |]; try done; try (by destruct Hx). destruct Hx as (_ & Hdt & _).
    assert (Hd : forall t, dt = Some t -> fmt_node k E h t <> Panic q).
    { intros t ->. destruct (Hdt t eq_refl) as (st & Hst & Htt). apply info_inv in Hst as (nt & Hnt & <-). cbn in Htt. destruct k as [|k]; [done|]. cbn [fmt_node]. rewrite (get_node_some _ _ _ Hnt). cbn [rbind]. rewrite Htt.
      destruct (inv_node h HI t nt Hnt) as (Hxt & _). unfold ext_ok in Hxt. rewrite Htt in Hxt. destruct (n_ext nt) as [| | |es ns pub sys sub| | |]; try done; try (by destruct Hxt). destruct Hxt as (_ & -> & ->). by rewrite Hnil. }
    destruct dt as [t|].
    + specialize (Hd t eq_refl). destruct (fmt_node k E h t) as [s| |q'|]; try done. cbn [rbind] in H.
      destruct (fmt_list _ (n_children n)) as [s'| |q'|] eqn:Hl'; try done. cbn [rbind] in H. injection H as ->. apply HC; [right; by left|done].
    + cbn [rbind] in H. destruct (fmt_list _ (n_children n)) as [s'| |q'|] eqn:Hl'; try done. cbn [rbind] in H. injection H as ->. apply HC; [right; by left|done].
  - unfold ext_ok in Hx. rewrite Ht in Hx. destruct (n_ext n) as [| | |es ns pub sys sub| | |]; try done; try (by destruct Hx). destruct Hx as (_ & -> & ->). by rewrite Hnil in H.
  - destruct (fmt_list _ (n_children n)) as [s'| |q'|] eqn:Hl'; try done. cbn [rbind] in H. injection H as ->. apply HC; [right; right; by left|done].
  - done.
Qed.
Lemma fmt_faulty E h i j fuel s : wf_env E -> Inv h -> shows h i j ->
  node_type_of h j = Ok NAttribute /\ unreadable E h j \/ (exists attrs k a, attributes h j = Ok attrs /\ In (k, a) attrs /\ unreadable E h a) -> fmt_node fuel E h i <> Ok s.
Proof.
  intros HE HI Hs Hu. revert fuel s. induction Hs as [i|i t c j Ht Hin (l & (n & Hn & <-)%child_nodes_ok & Hc) Hs IH]; intros fuel s H; (destruct fuel as [|f]; [done|]); cbn [fmt_node] in H.
  - destruct Hu as [[(n & Hn & Ht)%node_type_ok Hu]|(attrs & k & a & Ha & Hin & Hu)].
    + rewrite (get_node_some _ _ _ Hn) in H. cbn [rbind] in H. rewrite Ht in H. unfold fmt_attribute in H. rewrite (get_node_some _ _ _ Hn) in H. cbn [rbind] in H.
      destruct (readable_or_not E h i n HE HI Hn) as [[_ ?]|[[p Hp] _]]; [done|]. by rewrite Hp in H.
    + destruct (get_node h i) as [n| | |] eqn:Hn; try done. cbn [rbind] in H. apply get_node_ok in Hn.
      assert (Ht : n_type n = NElement). { unfold attributes in Ha. rewrite (get_node_some _ _ _ Hn) in Ha. cbn in Ha. destruct (is_type NElement n) eqn:Ht; [by apply is_type_true in Ht|]. injection Ha as <-. done. }
      rewrite Ht, Ha in H. cbn [rbind] in H. destruct (fmt_list _ (e_ord_attr E attrs)) as [x| | |] eqn:Hl; try done. 
      assert (Hin' : In (k, a) (e_ord_attr E attrs)) by (by rewrite (In_perm _ _ _ (wf_ord_attr E HE attrs))).
      destruct (fmt_list_ok _ _ _ Hl _ Hin') as [y Hy]. cbn [snd] in Hy. destruct (attrs_inv h i n attrs HI Hn Ha _ _ Hin) as (na & Hna & Hta & _).
      destruct f as [|f]; [done|]. cbn [fmt_node] in Hy. rewrite (get_node_some _ _ _ Hna) in Hy. cbn [rbind] in Hy. rewrite Hta in Hy. unfold fmt_attribute in Hy. rewrite (get_node_some _ _ _ Hna) in Hy. cbn [rbind] in Hy.
      destruct (readable_or_not E h a na HE HI Hna) as [[_ ?]|[[p Hp] _]]; [done|]. by rewrite Hp in Hy.
  - specialize (IH Hu). apply node_type_ok in Ht as (n' & Hn' & Ht). assert (n' = n) as -> by congruence. rewrite (get_node_some _ _ _ Hn) in H. cbn [rbind] in H. rewrite Ht in H.
    assert (Hl : forall x, fmt_list (fmt_node f E h) (n_children n) <> Ok x).
    { intros x Hl. destruct (fmt_list_ok _ _ _ Hl _ Hc) as [y Hy]. by eapply IH. }
    destruct Hin as [<-|[<-|[<-|[]]]].
    + destruct (attributes h i) as [at_| | |]; try done. cbn [rbind] in H. destruct (fmt_list _ (e_ord_attr E at_)); try done. cbn [rbind] in H. destruct (fmt_list _ (n_children n)) as [x| | |]; try done. by eapply Hl.
    + destruct (xml_declaration h i); try done. cbn [rbind] in H. destruct (doc_type h i) as [dt| | |]; try done. cbn [rbind] in H.
      destruct (match dt with Some t => fmt_node f E h t | None => Ok [] end); try done. cbn [rbind] in H. destruct (fmt_list _ (n_children n)) as [x| | |]; try done. by eapply Hl.
    + destruct (fmt_list _ (n_children n)) as [x| | |]; try done. by eapply Hl.
Qed.

(** The walks: no error; the tag searches do not panic; printing and the namespace lookups panic exactly when stated
    (printing: given that there is no cycle at or below the node); a walk that does not end has met a cycle. *)
Theorem C67_walks_no_error : forall E h q e, walk q = true -> ask E h q <> Err e.
Proof.
  intros E h q e Hw H.
  assert (HE : forall A (r : res A) (f : A -> answer), errfree r -> ans f r = Err e -> False).
  { intros A r f Hr Hq. unfold ans in Hq. by destruct r. }
  assert (HD : errfree (document_element h (about q))) by (unfold document_element, first_child; apply errfree_bind; [apply errfree_node|done]).
  destruct q; try done; cbn [ask about] in *; (eapply HE; [|exact H]); clear H Hw.
  - apply errfree_fmt.
  - apply errfree_bind; [done|]. intros [x|]; [apply errfree_search|done].
  - apply errfree_bind; [done|]. intros [x|]; [apply errfree_search|done].
  - apply errfree_search.
  - apply errfree_search.
  - unfold resolve_namespace. generalize (walk_fuel h). intros f. revert i HD. induction f as [|f IH]; intros i HD; [done|]. cbn [resolve_namespace_rec].
    assert (HN : forall j, errfree (add_namespaces h j)).
    { intros j. unfold add_namespaces, owner_document. apply errfree_bind; [apply errfree_bind; [apply errfree_node|done]|]. intros [d|]; [|done]. apply errfree_bind; [apply errfree_node|done]. }
    apply errfree_bind; [done|]. intros []; [|done]. cbn [negb]. apply errfree_bind.
    { unfold get_namespace. apply errfree_bind; [done|]. intros []; [|done]. cbn [negb]. apply errfree_bind; [apply errfree_node|done]. }
    intros [u|]; [done|]. apply errfree_bind; [apply errfree_node|]. intros n. destruct (n_parent n) as [r|]; [|done]. destruct (alive h r); [|done]. apply IH.
    unfold document_element, first_child. apply errfree_bind; [apply errfree_node|done].
  - unfold resolve_prefix. generalize (walk_fuel h). intros f. revert i HD. induction f as [|f IH]; intros i HD; [done|]. cbn [resolve_prefix_rec].
    assert (HN : forall j, errfree (add_namespaces h j)).
    { intros j. unfold add_namespaces, owner_document. apply errfree_bind; [apply errfree_bind; [apply errfree_node|done]|]. intros [d|]; [|done]. apply errfree_bind; [apply errfree_node|done]. }
    apply errfree_bind; [done|]. intros []; [|done]. cbn [negb]. apply errfree_bind.
    { unfold get_prefix. apply errfree_bind; [done|]. intros []; [|done]. cbn [negb]. apply errfree_bind; [apply errfree_node|done]. }
    intros [| |u]; try done. apply errfree_bind; [apply errfree_node|]. intros n. destruct (n_parent n) as [r|]; [|done]. destruct (alive h r); [|done]. apply IH.
    unfold document_element, first_child. apply errfree_bind; [apply errfree_node|done].
Qed.
Print Assumptions C67_walks_no_error.
Theorem C67_walk_panics_only : forall E h q p, wf_env E -> reachable h -> alive h (about q) = true -> walk q = true ->
  ask E h q = Panic p -> walk_faulty E h q.
Proof.
  intros E h q p HE Hr Ha Hw H. pose proof (reachable_inv h Hr) as HI.
  assert (HA : forall A (r : res A) (f : A -> answer), ans f r = Panic p -> r = Panic p) by (intros A r f Hq; unfold ans in Hq; destruct r; try done; by injection Hq as ->).
  assert (HD : forall e, document_element h (about q) = Ok (Some e) -> alive h e = true).
  { intros e He. unfold document_element, first_child in He. apply alive_true in Ha as [n Hn]. rewrite (get_node_some _ _ _ Hn) in He. cbn in He. injection He as He.
    destruct (inv_child_alive h (about q) e HI) as [nc Hnc]; [|apply alive_true; by eauto]. exists (n_children n). split; [by apply child_nodes_some|]. destruct (n_children n); [done|]. injection He as ->. by left. }
  assert (HF : forall p', document_element h (about q) <> Panic p').
  { intros p'. unfold document_element, first_child. apply alive_true in Ha as [n Hn]. by rewrite (get_node_some _ _ _ Hn). }
  destruct q; try done; cbn [ask about] in *; apply HA in H; clear HA.
  - by eapply fmt_panic.
  - exfalso. unfold document_get_elements_by_tag_name in H. destruct (document_element h i) as [[e|]| | |]; try done; [|by eapply HF]. cbn [rbind] in H. eapply search_no_panic; [done| |exact H]. by apply HD.
  - exfalso. unfold document_get_elements_by_tag_name_ns in H. destruct (document_element h i) as [[e|]| | |]; try done; [|by eapply HF]. cbn [rbind] in H. eapply search_no_panic; [done| |exact H]. by apply HD.
  - exfalso. by eapply search_no_panic in H.
  - exfalso. by eapply search_no_panic in H.
  - apply resolve_panic in H as [H1 H2]; [|done..]. by constructor.
  - apply resolve_prefix_panic in H as [H1 H2]; [|done..]. by constructor.
Qed.
Print Assumptions C67_walk_panics_only.
Theorem C67_lookup_panics : forall E h q, wf_env E -> reachable h -> walk_faulty E h q -> (forall i, q <> QToString i) -> ask E h q = Panic PUnwrap.
Proof.
  intros E h q HE Hr Hw Hne. destruct Hw as [i j H1 H2 H3|i j at_ k a H1 H2 H3 H4|i p H1 H2|i u H1 H2]; [by destruct (Hne i)|by destruct (Hne i)| |]; cbn [ask].
  - by rewrite (C45_resolve h i p AtGone Hr H1 H2).
  - by rewrite (C46_resolve_prefix E h i u AtGone HE Hr H1 H2).
Qed.
Print Assumptions C67_lookup_panics.
Theorem C67_print_panics : forall E h i, wf_env E -> reachable h -> alive h i = true -> walk_faulty E h (QToString i) ->
  (forall s, to_string E h i <> Ok s) /\ (no_cycle_below h i -> exists p, to_string E h i = Panic p).
Proof.
  intros E h i HE Hr Ha Hw. pose proof (reachable_inv h Hr) as HI.
  assert (HO : forall s, to_string E h i <> Ok s).
  { intros s. inversion Hw as [? j H1 H2 H3|? j at_ k a H1 H2 H3 H4| |]; subst; apply (fmt_faulty E h i j _ s HE HI H1); [by left|right; by exists at_, k, a]. }
  split; [done|]. intros Hnc. destruct (C57_walks_end E h i [] [] [] Hr HE Ha Hnc) as (_ & _ & _ & Hd).
  pose proof (errfree_fmt E h (S (walk_fuel h)) i) as Hef. change (fmt_node (S (walk_fuel h)) E h i) with (to_string E h i) in Hef.
  destruct (to_string E h i) as [s| |p|]; [by destruct (HO s)|done|eauto|done].
Qed.
Print Assumptions C67_print_panics.

Lemma not_wide_no s : name_from_str s = Panic PSlice -> wide_fault s.
Proof. intros H. apply C10_panics_iff. by eexists. Qed.
Example C67_example :
  ask env0 ex_access (QGetAttribute 1 (lit "a")) = Panic PExplicit /\ ask env0 ex_access (QToString 0) = Panic PExplicit /\
  ask env0 ex_access (QHasAttribute 1 [233%N]) = Panic PSlice /\ ask env0 ex_access (QHasAttribute 2 [233%N]) = Ok (ABool false) /\
  ask env0 ex_access (QSubstring 2 2 1) = Panic PSlice /\ ask env0 ex_access (QSubstring 2 6 1) = Err IndexSize /\
  ask env0 ex_access (QImplementation 1) = Panic PExplicit /\ ask env0 ex_access (QAs TText 3) = Err InvalidState /\
  ask env0 ex_access (QToString 6) = Ok (AStr (lit "b=""""")) /\ ask env0 ex_access (QByTag 1 (lit "*")) = Ok (ANodes [1]).
Proof. by vm_compute. Qed.
Example C67_hypotheses : alive ex_access 1 = true /\ faulty env0 ex_access (QGetAttribute 1 (lit "a")) /\ walk_faulty env0 ex_access (QToString 0) /\
  denied env0 ex_access (QSubstring 2 6 1) IndexSize /\ faulty env0 ex_access (QHasAttribute 1 [233%N]).
Proof.
  assert (HU : unreadable env0 ex_access 5).
  { exists (lit "x &amp; y"), (lit "x "), (lit "&amp; y"). split; [|split; [done|]].
    - eexists _, [lit "x &amp; y"]. split; [by vm_compute|]. split; [done|]. split; [|done]. constructor; [|constructor]. eexists. split; [by vm_compute|]. left. split; [by left|done].
    - left. exists 38%N, 97%N, (lit "mp"), (lit " y"). split; [done|]. split; [by left|]. split; [by left|]. repeat constructor; by left. }
  split; [by vm_compute|]. split; [eapply fa_get_value; [by vm_compute|exact HU]|]. split; [|split].
  - eapply (wf_show _ _ 0 1); [|by vm_compute|by left|exact HU]. eapply sh_child; [by vm_compute|right; by left| |constructor]. exists [1]. split; [by vm_compute|by left].
  - constructor; [by left|done|]. right. exists (104%N :: 233%N :: lit "llo"). split; [by eexists|done].
  - constructor; [by vm_compute|]. apply not_wide_no. by vm_compute.
Qed.
