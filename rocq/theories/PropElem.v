(** * C39-C44: attributes of elements, ids *)
From Coq Require Import Lia.
From Verif Require Import NsModel SpecTree ProofText ProofName ProofAttr PropText PropName History ProofInv ProofSteps ProofOps ProofTree ProofElem.

Lemma attributes_ok h e l : attributes h e = Ok l <-> exists n, h_nodes h !! e = Some n /\
  l = if is_type NElement n then match n_ext n with XElement a _ => a | _ => [] end else [].
Proof.
  unfold attributes, get_node. destruct (h_nodes h !! e) as [n|]; cbn.
  - split; [intros [= <-]; eauto|]. intros (m & [= ->] & ->). done.
  - split; [done|]. intros (m & ? & _). done.
Qed.
Lemma attributes_el h e ne attrs nss : h_nodes h !! e = Some ne -> n_type ne = NElement -> n_ext ne = XElement attrs nss -> attributes h e = Ok attrs.
Proof. intros He Ht%is_type_true Hx. apply attributes_ok. exists ne. split; [done|]. by rewrite Ht, Hx. Qed.

(** ** C39 *)
Theorem C39_keyed_by_name : forall h e l, reachable h -> attributes h e = Ok l ->
  List.NoDup (map fst l) /\ forall k a, In (k, a) l ->
    node_type_of h a = Ok NAttribute /\ node_name h a = Ok k /\ owner_link h a = owner_link h e.
Proof.
  intros h e l Hr (n & Hn & ->)%attributes_ok. pose proof (reachable_inv h Hr) as HI.
  destruct (is_type NElement n); [|split; [constructor|done]]. destruct (inv_node h HI e n Hn) as (Hx & _). unfold ext_ok in Hx.
  destruct (n_ext n) as [| | | |attrs nss| |] eqn:Hext; try (split; [constructor|done]). destruct Hx as (Ht & Hnd & Ha & _). split; [done|].
  intros k a Hin. destruct (Ha k a Hin) as (s & Hs & Hst & Hsn & Hso). apply info_inv in Hs as (na & Hna & <-).
  unfold node_type_of, node_name, owner_link, get_node. rewrite Hna, Hn. cbn in *. split_and!; congruence.
Qed.
Print Assumptions C39_keyed_by_name.
Definition ex_attr_ops : list op :=
  [ OCreateDocument None (Some (lit "r")) None (set_assume_ids options_new); OSetAttribute 1 (lit "a") (lit " one<two ");
    OSetAttribute 1 (lit "id") (lit "k1"); OSetAttributeNs 1 (lit "urn:u") (lit "p:b") (lit "v"); OCreateElement 0 (lit "e2") ].
Definition ex_attr : heap := default empty_heap (run env0 ex_attr_ops empty_heap).
Example ex_attr_reachable : reachable ex_attr.
Proof. apply (run0_reachable ex_attr_ops). by vm_compute. Qed.
Example C39_example : attributes ex_attr 1 = Ok [(mkName None None (lit "a"), 3); (mkName None None (lit "id"), 5); (mkName (Some (lit "urn:u")) (Some (lit "p")) (lit "b"), 7)].
Proof. by vm_compute. Qed.

(** ** C40 *)
(** No two attributes have the same printed name. *)
Definition printed_apart (h : heap) (e : id) : Prop := forall l k1 a1 k2 a2, attributes h e = Ok l ->
  In (k1, a1) l -> In (k2, a2) l -> name_to_string k1 = name_to_string k2 -> k1 = k2.
(** The attribute printed [n], if there is one, has no namespace. *)
Definition no_ns_twin (h : heap) (e : id) (n : str) : Prop := forall l k a, attributes h e = Ok l ->
  In (k, a) l -> name_to_string k = n -> nm_ns k = None.

Definition by_print (s : str) : Name -> bool := fun k => str_eqb (name_to_string k) s.
Definition by_ns (u l : str) : Name -> bool := fun k => ostr_eqb (nm_ns k) (Some u) && str_eqb (nm_local k) l.
Lemma get_attribute_node_eq E h e ne attrs nss s nm : h_nodes h !! e = Some ne -> n_type ne = NElement -> n_ext ne = XElement attrs nss ->
  name_from_str s = Ok nm -> get_attribute_node E h e s = Ok (lookup_attr E (by_print s) attrs).
Proof.
  intros He Ht%is_type_true Hx Hs. unfold get_attribute_node, get_node. rewrite He. cbn [rbind]. rewrite Ht, Hs, Hx.
  unfold lookup_attr, by_print. by rewrite (C09_print_parse _ _ Hs).
Qed.
Lemma get_attribute_node_ns_eq E h e ne attrs nss u s nm : h_nodes h !! e = Some ne -> n_type ne = NElement -> n_ext ne = XElement attrs nss ->
  name_new_ns u s = Ok nm -> get_attribute_node_ns E h e u s = Ok (lookup_attr E (by_ns u s) attrs).
Proof. intros He Ht%is_type_true Hx Hs. unfold get_attribute_node_ns, get_node. rewrite He. cbn [rbind]. by rewrite Ht, Hs, Hx. Qed.
Lemma existsb_attr (p : Name -> bool) (attrs : list (Name * id)) : existsb (fun q => p q.1) attrs = true <-> exists k a, In (k, a) attrs /\ p k = true.
Proof.
  rewrite existsb_exists. split; [intros ([k a] & ? & ?); eauto|]. intros (k & a & ? & ?). by exists (k, a).
Qed.
Lemma has_attribute_eq h e ne attrs nss s nm : h_nodes h !! e = Some ne -> n_type ne = NElement -> n_ext ne = XElement attrs nss ->
  name_from_str s = Ok nm -> has_attribute h e s = Ok (existsb (fun q => by_print s q.1) attrs).
Proof.
  intros He Ht%is_type_true Hx Hs. unfold has_attribute, get_node. rewrite He. cbn [rbind]. rewrite Ht, Hs, Hx.
  unfold by_print. by rewrite (C09_print_parse _ _ Hs).
Qed.
Lemma new_ns_parts u s nm : name_new_ns u s = Ok nm -> nm_ns nm = Some u.
Proof. intros H. by apply name_new_ns_print in H as [_ ?]. Qed.
Lemma split_no_colon s : forall c acc, split_on c s = acc -> ~ In c s -> acc = [s].
Proof.
  induction s as [|x s IH]; intros c acc <- Hin; [done|]. cbn. destruct (N.eqb_spec x c) as [->|Hx]; [exfalso; apply Hin; by left|].
  rewrite (IH c _ eq_refl) by (intros ?; apply Hin; by right). done.
Qed.


Lemma stored_new h a t d nm e v : h_nodes h !! a = Some (mkNode NAttribute nm None None (Some d) [t] (XAttribute (Some e))) ->
  h_nodes h !! t = Some (new_text d v) -> stored_text h a v.
Proof.
  intros Ha Ht. exists (mkNode NAttribute nm None None (Some d) [t] (XAttribute (Some e))), [v]. split; [done|]. split; [done|]. split; [|by rewrite concat_cons, app_nil_r].
  constructor; [|constructor]. exists (new_text d v). split; [done|]. left. split; [by left|done].
Qed.
Lemma value_view E h h' (o : option id) : same_view h h' -> Inv h -> (forall a, o = Some a -> exists n, h_nodes h !! a = Some n /\ n_type n = NAttribute) ->
  value_of_attribute_node E h' o = value_of_attribute_node E h o.
Proof.
  intros Hv HI Ho. destruct o as [a|]; [|done]. destruct (Ho a eq_refl) as (n & Hn & Ht). destruct (same_view_some h h' a n Hv HI Hn) as (n' & Hn' & Hvn).
  injection Hvn as Ht' _ _ _ _ _. cbn. rewrite (get_node_some _ _ _ Hn), (get_node_some _ _ _ Hn'). cbn [rbind]. apply is_type_true in Ht as Ht2.
  assert (Ht3 : is_type NAttribute n' = true) by (apply is_type_true; congruence). rewrite Ht2, Ht3. by eapply attr_value_view.
Qed.
Lemma lookup_attr_in E p attrs a : wf_env E -> lookup_attr E p attrs = Some a -> exists k, In (k, a) attrs.
Proof.
  intros HE. unfold lookup_attr. destruct (find_first _ _) as [[k b]|] eqn:Hf; [|done]. cbn. intros [= ->]. exists k.
  apply (In_perm _ _ _ (wf_ord_attr E HE attrs)).
  assert (G : forall l, find_first (fun q : Name * id => p q.1) l = Some (k, a) -> In (k, a) l).
  { induction l as [|y l IH]; [done|]. cbn. destruct (p y.1); [intros [= ->]; by left|]. intros Hl. right. auto. }
  by apply G.
Qed.

Section set_get.
  Context (E E' : env) (h h' : heap) (e a : id) (nm : Name) (v : str) (r : res unit) (ne : node) (attrs : list (Name * id)) (nss nss' : list (option str * str)).
  Context (HE' : wf_env E') (HI : Inv h) (Hte : n_type ne = NElement) (W : was_set E h h' e nm v r a ne attrs nss nss').
  Lemma set_value_read p : at_most_one p attrs -> p nm = true -> (forall k b, In (k, b) attrs -> p k = true -> k = nm) ->
    lookup_attr E' p (hm_insert nm a attrs) = Some a /\
    (forall l t0 t d, line_ends_normalised v l -> expands E' l t0 -> trimmed t0 t -> escaped t d -> value_of_attribute_node E' h' (Some a) = Ok (Some d)) /\
    (forall x y, v = x ++ y -> bad_ref E' y -> exists q, value_of_attribute_node E' h' (Some a) = Panic q).
  Proof.
    intros Hu Hp Htw. destruct W as [He Hx Hnd Hnew He' (t & d & Ha' & Hnt & Ht') Hvw _ _]. split.
    { eapply lookup_attr_some; [done|by apply hm_insert_nodup| |apply hm_insert_iff; [done|by left]|done].
      intros k1 a1 k2 a2 H1 H2 Hp1 Hp2. apply hm_insert_iff in H1, H2; try done.
      destruct H1 as [[-> _]|[_ H1]], H2 as [[-> _]|[_ H2]]; [done|symmetry; eauto|eauto|]. etrans; [by eapply Htw|symmetry; by eapply Htw]. }
    assert (Hst : stored_text h' a v) by (by eapply stored_new).
    assert (Hval : value_of_attribute_node E' h' (Some a) = attr_value E' h' a).
    { cbn. rewrite (get_node_some _ _ _ Ha'). done. }
    rewrite Hval. split.
    - intros l t0 t1 d1 H1 H2 H3 H4. by eapply C05_references_expanded.
    - intros x y Hxy [Hb|Hb]; [by eapply C06_named_reference_panics|by eapply C05_bad_number_panics].
  Qed.
  Lemma set_other_read p : at_most_one p attrs -> p nm = false ->
    lookup_attr E' p (hm_insert nm a attrs) = lookup_attr E' p attrs /\
    value_of_attribute_node E' h' (lookup_attr E' p attrs) = value_of_attribute_node E' h (lookup_attr E' p attrs).
  Proof.
    intros Hu Hp. destruct W as [He Hx Hnd Hnew He' Ha' Hvw _ _]. split; [by apply lookup_attr_insert|].
    apply value_view; [done|done|]. intros b Hb. apply lookup_attr_in in Hb as (k & Hin); [|done].
    destruct (inv_node h HI e ne He) as (Hex & _). unfold ext_ok in Hex. rewrite Hx in Hex. destruct Hex as (_ & _ & Hex & _).
    destruct (Hex k b Hin) as (s & Hs & Hst & _). apply info_inv in Hs as (nb & Hnb & <-). eauto.
  Qed.
End set_get.
Lemma existsb_insert (p : Name -> bool) attrs k (a : id) : List.NoDup (map fst attrs) -> p k = false ->
  existsb (fun q => p q.1) (hm_insert k a attrs) = existsb (fun q => p q.1) attrs.
Proof.
  intros Hnd Hp. apply eq_bool_prop_intro. split; intros H%Is_true_eq_true; apply Is_true_eq_left; apply existsb_attr in H as (k' & a' & Hin & Hp');
    apply existsb_attr; exists k', a'; (split; [|done]).
  - apply hm_insert_iff in Hin; [|done]. destruct Hin as [[-> _]|[_ ?]]; [congruence|done].
  - apply hm_insert_iff; [done|]. right. split; [congruence|done].
Qed.
(** Whatever order the hash map iterates in (both in [E], when setting, and in [E'], when reading). *)
Theorem C40_set_get : forall E E' h h' e n v, wf_env E' -> reachable h -> node_type_of h e = Ok NElement ->
  printed_apart h e -> no_ns_twin h e n -> set_attribute E e n v h = (h', Ok tt) ->
  has_attribute h' e n = Ok true /\
  (forall l t0 t d, line_ends_normalised v l -> expands E' l t0 -> trimmed t0 t -> escaped t d -> get_attribute E' h' e n = Ok (Some d)) /\
  (forall x y, v = x ++ y -> bad_ref E' y -> exists q, get_attribute E' h' e n = Panic q) /\
  printed_apart h' e /\
  forall m, m <> n -> get_attribute E' h' e m = get_attribute E' h e m /\ has_attribute h' e m = has_attribute h e m.
Proof.
  intros E E' h h' e n v HE' Hr (ne & He & Hte)%node_type_ok Hap Htw H. pose proof (reachable_inv h Hr) as HI.
  unfold set_attribute in H. destruct (name_from_str n) as [nm| | |] eqn:Hn; unfold bind at 1, lift in H; cbn in H; try discriminate.
  destruct (set_new_attribute_inv E h h' e ne nm v (Ok tt) HI He Hte (parsed_from_str _ _ Hn) H Logic.I) as (a & attrs & nss & nss' & W).
  pose proof (ws_ext _ _ _ _ _ _ _ _ _ _ _ _ W) as Hx. pose proof (ws_e' _ _ _ _ _ _ _ _ _ _ _ _ W) as He'. pose proof (ws_nodup _ _ _ _ _ _ _ _ _ _ _ _ W) as Hnd.
  pose proof (attributes_el h e ne _ _ He Hte Hx) as Hat. pose proof (C09_print_parse _ _ Hn) as Hpr.
  assert (Hns : nm_ns nm = None).
  { apply C08_accepts in Hn as [(_ & _ & ->)|(p & l & _ & _ & _ & ->)]; done. }
  assert (Hat' : attributes h' e = Ok (hm_insert nm a attrs)) by (by eapply attributes_el).
  assert (Hau : forall s, at_most_one (by_print s) attrs).
  { intros s k1 a1 k2 a2 H1 H2 Hp1%str_eqb_true Hp2%str_eqb_true. eapply Hap; try done. congruence. }
  assert (Htw' : forall k b, In (k, b) attrs -> by_print n k = true -> k = nm).
  { intros k b Hin Hp%str_eqb_true. pose proof (Htw attrs k b Hat Hin Hp) as Hk.
    destruct (C39_keyed_by_name h e attrs Hr Hat) as [_ Hkey]. destruct (Hkey k b Hin) as (Htb & Hnb & _).
    apply node_type_ok in Htb as (nb & Hb & Htb). unfold node_name, get_node in Hnb. rewrite Hb in Hnb. injection Hnb as Hnb.
    destruct (inv_node h HI b nb Hb) as (_ & _ & _ & _ & Hnm). unfold name_ok in Hnm. rewrite Htb in Hnm. destruct Hnm as [s Hs]. rewrite Hnb in Hs.
    destruct k as [kn kp kl]. cbn in *. subst kn. eapply C09_print_injective; [exact Hs|exact Hn|congruence]. }
  assert (Hpn : by_print n nm = true) by (by apply str_eqb_true).
  destruct (set_value_read E E' h h' e a nm v _ ne attrs nss nss' HE' W (by_print n) (Hau n) Hpn Htw') as (Hl & Hv1 & Hv2).
  assert (Hget : get_attribute E' h' e n = value_of_attribute_node E' h' (Some a)).
  { unfold get_attribute. erewrite get_attribute_node_eq by done. cbn [rbind]. by rewrite Hl. }
  split.
  { erewrite has_attribute_eq by done. f_equal. apply existsb_attr. exists nm, a. split; [|done]. apply hm_insert_iff; [done|]. by left. }
  split; [intros; rewrite Hget; by eapply Hv1|]. split; [intros; rewrite Hget; by eapply Hv2|]. split.
  { intros l k1 a1 k2 a2 Hl' H1 H2 Hk. rewrite Hat' in Hl'. injection Hl' as <-. apply hm_insert_iff in H1, H2; try done.
    destruct H1 as [[-> _]|[_ H1]], H2 as [[-> _]|[_ H2]]; [done| | |by eapply Hap].
    - symmetry. eapply Htw'; [done|]. apply str_eqb_true. congruence.
    - eapply Htw'; [done|]. apply str_eqb_true. congruence. }
  intros m Hm. assert (Hpm : by_print m nm = false) by (apply str_eqb_false; congruence).
  destruct (set_other_read E E' h h' e a nm v _ ne attrs nss nss' HE' HI W (by_print m) (Hau m) Hpm) as (Hl2 & Hv).
  destruct (name_from_str m) as [nm2|x|x|] eqn:Hm2.
  - split.
    + unfold get_attribute. erewrite (get_attribute_node_eq E' h') by done. erewrite (get_attribute_node_eq E' h) by done. cbn [rbind]. by rewrite Hl2.
    + erewrite (has_attribute_eq h') by done. erewrite (has_attribute_eq h) by done. f_equal. by apply existsb_insert.
  - unfold get_attribute, get_attribute_node, has_attribute. rewrite (get_node_some _ _ _ He), (get_node_some _ _ _ He'). cbn [rbind]. rewrite Hm2.
    apply is_type_true in Hte as Ht1. change (is_type NElement (set_ext _ ne)) with (is_type NElement ne). rewrite Ht1. done.
  - unfold get_attribute, get_attribute_node, has_attribute. rewrite (get_node_some _ _ _ He), (get_node_some _ _ _ He'). cbn [rbind]. rewrite Hm2.
    apply is_type_true in Hte as Ht1. change (is_type NElement (set_ext _ ne)) with (is_type NElement ne). rewrite Ht1. done.
  - unfold get_attribute, get_attribute_node, has_attribute. rewrite (get_node_some _ _ _ He), (get_node_some _ _ _ He'). cbn [rbind]. rewrite Hm2.
    apply is_type_true in Hte as Ht1. change (is_type NElement (set_ext _ ne)) with (is_type NElement ne). rewrite Ht1. done.
Qed.
Print Assumptions C40_set_get.
Example C40_example : printed_apart ex_attr 1 /\ no_ns_twin ex_attr 1 (lit "c") /\
  let h' := (set_attribute env0 1 (lit "c") (lit " x &#60; ") ex_attr).1 in
  set_attribute env0 1 (lit "c") (lit " x &#60; ") ex_attr = (h', Ok tt) /\ get_attribute env0 h' 1 (lit "c") = Ok (Some (lit "x &#60;")) /\
  get_attribute env0 h' 1 (lit "a") = Ok (Some (lit "one&#60;two")).
Proof.
  split; [|split; [|by vm_compute]].
  - intros l k1 a1 k2 a2 Hl H1 H2. rewrite C39_example in Hl. injection Hl as <-.
    destruct H1 as [H1|[H1|[H1|[]]]], H2 as [H2|[H2|[H2|[]]]]; injection H1 as <- <-; injection H2 as <- <-; try done; intros HE; exfalso; by vm_compute in HE.
  - intros l k a Hl H1. rewrite C39_example in Hl. injection Hl as <-.
    destruct H1 as [H1|[H1|[H1|[]]]]; injection H1 as <- <-; try done; intros HE; exfalso; by vm_compute in HE.
Qed.
(** Without the hypotheses it is false: the value read depends on the order of the hash map. *)
Definition ex_env_rev : env := mkEnv (e_checked env0) (e_letter env0) (e_digit env0) (fun l => reverse l) (e_ord_ns env0).
Lemma wf_env_rev : wf_env ex_env_rev.
Proof. pose proof wf_env0 as [H1 H2 H3 H4 H5]. split; cbn; try done. intros l. apply reverse_Permutation. Qed.
Theorem C40_any_element_refuted : exists E E' h h' e n v v1 v2, wf_env E /\ wf_env E' /\ reachable h /\ node_type_of h e = Ok NElement /\
  set_attribute E e n v h = (h', Ok tt) /\ get_attribute E h' e n = Ok (Some v1) /\ get_attribute E' h' e n = Ok (Some v2) /\ v1 <> v2.
Proof.
  exists env0, ex_env_rev, ex_attr, (set_attribute env0 1 (lit "p:b") (lit "w") ex_attr).1, 1, (lit "p:b"), (lit "w"). do 2 eexists.
  split; [exact wf_env0|]. split; [exact wf_env_rev|]. split; [exact ex_attr_reachable|]. split; [by vm_compute|]. split; [by vm_compute|].
  split; [by vm_compute|]. split; [by vm_compute|]. by vm_compute.
Qed.
Print Assumptions C40_any_element_refuted.

(** The same by namespace and local part. *)
Definition expanded_apart (h : heap) (e : id) : Prop := forall l k1 a1 k2 a2, attributes h e = Ok l ->
  In (k1, a1) l -> In (k2, a2) l -> nm_ns k1 <> None -> nm_ns k1 = nm_ns k2 -> nm_local k1 = nm_local k2 -> k1 = k2.
(** The attribute with this namespace and local part, if there is one, is printed [q]. *)
Definition no_prefix_twin (h : heap) (e : id) (u l q : str) : Prop := forall ls k a, attributes h e = Ok ls ->
  In (k, a) ls -> nm_ns k = Some u -> nm_local k = l -> name_to_string k = q.
Definition local_part (q l : str) : Prop := colon_free l /\ (q = l \/ exists p, q = p ++ 58%N :: l).
Lemma by_ns_true u l k : by_ns u l k = true <-> nm_ns k = Some u /\ nm_local k = l.
Proof. unfold by_ns. by rewrite andb_true_iff, ostr_eqb_true, str_eqb_true. Qed.
Lemma by_ns_ext (k : Name) u l (o : option str) : nm_ns k = Some u -> nm_local k = l -> forall q, ostr_eqb (nm_ns q) (nm_ns k) && str_eqb (nm_local q) (nm_local k) = by_ns u l q.
Proof. intros -> -> q. done. Qed.
Lemma colon_free_app_cons p l p' l' : colon_free l -> colon_free l' -> p ++ 58%N :: l = p' ++ 58%N :: l' -> l = l'.
Proof.
  intros H1 H2. revert p'. induction p as [|x p IH]; intros [|y p']; cbn; intros [=]; try done; subst.
  - exfalso. apply H1. apply in_app_iff. right. by left.
  - exfalso. apply H2. apply in_app_iff. right. by left.
  - eauto.
Qed.
Lemma new_ns_local u q l nm : name_new_ns u q = Ok nm -> local_part q l -> nm_local nm = l /\ nm_ns nm = Some u /\ name_new_ns u l = Ok (mkName (Some u) None l).
Proof.
  intros H [Hl Hq]. apply name_new_ns_inv in H as Hi. destruct Hi as (m & Hm & ->). cbn.
  unfold name_new_ns in *. rewrite Hm in H. cbn [rbind] in H.
  assert (nm_local m = l /\ name_from_str l = Ok (mkName None None l)) as [Hml Hfl].
  { apply C08_accepts in Hm as [(Ho & Hg & ->)|(p & l' & (-> & Hp & Hl') & Hgp & Hgl & ->)].
    - destruct Hq as [->|(p & ->)]; [|exfalso; apply Ho; apply in_app_iff; right; by left]. split; [done|]. apply C08_accepts. by left.
    - cbn. assert (l' = l) as ->.
      { destruct Hq as [<-|(p' & Hq)]; [exfalso; apply Hl; apply in_app_iff; right; by left|]. by eapply colon_free_app_cons. }
      split; [done|]. apply C08_accepts. by left. }
  split; [done|]. split; [done|]. rewrite Hfl. cbn [rbind nm_prefix nm_local]. unfold check_namespace_uri in *. rewrite Hml in H.
  destruct (is_nil u); [done|]. match type of H with context [if ?b then Err Namespace else _] => destruct b end; [done|].
  match type of H with context [if ?b then Err Namespace else _] => destruct b end; [done|]. done.
Qed.
Lemma has_attribute_ns_eq h e ne attrs nss u s nm : h_nodes h !! e = Some ne -> n_type ne = NElement -> n_ext ne = XElement attrs nss ->
  name_new_ns u s = Ok nm -> has_attribute_ns h e u s = Ok (existsb (fun q => by_ns u (nm_local nm) q.1) attrs).
Proof.
  intros He Ht%is_type_true Hx Hs. unfold has_attribute_ns, get_node. rewrite He. cbn [rbind]. rewrite Ht, Hs, Hx.
  apply C09_new_ns in Hs as [_ Hs]. by rewrite Hs.
Qed.
Theorem C40_set_get_ns : forall E E' h h' e u q l v, wf_env E' -> reachable h -> node_type_of h e = Ok NElement ->
  local_part q l -> expanded_apart h e -> no_prefix_twin h e u l q -> set_attribute_ns E e u q v h = (h', Ok tt) ->
  has_attribute_ns h' e u l = Ok true /\
  (forall x t0 t d, line_ends_normalised v x -> expands E' x t0 -> trimmed t0 t -> escaped t d -> get_attribute_ns E' h' e u l = Ok (Some d)) /\
  (forall x y, v = x ++ y -> bad_ref E' y -> exists p, get_attribute_ns E' h' e u l = Panic p) /\
  expanded_apart h' e /\
  forall u' l', (u', l') <> (u, l) -> get_attribute_ns E' h' e u' l' = get_attribute_ns E' h e u' l'.
Proof.
  intros E E' h h' e u q l v HE' Hr (ne & He & Hte)%node_type_ok Hq Hap Htw H. pose proof (reachable_inv h Hr) as HI.
  unfold set_attribute_ns in H. destruct (name_new_ns u q) as [nm| | |] eqn:Hn; unfold bind at 1, lift in H; cbn in H; try discriminate.
  destruct (set_new_attribute_inv E h h' e ne nm v (Ok tt) HI He Hte (parsed_new_ns _ _ _ Hn) H Logic.I) as (a & attrs & nss & nss' & W).
  pose proof (ws_ext _ _ _ _ _ _ _ _ _ _ _ _ W) as Hx. pose proof (ws_e' _ _ _ _ _ _ _ _ _ _ _ _ W) as He'. pose proof (ws_nodup _ _ _ _ _ _ _ _ _ _ _ _ W) as Hnd.
  pose proof (attributes_el h e ne _ _ He Hte Hx) as Hat. destruct (new_ns_local _ _ _ _ Hn Hq) as (Hnl & Hnn & Hn2).
  assert (Hat' : attributes h' e = Ok (hm_insert nm a attrs)) by (by eapply attributes_el).
  assert (Hau : forall u s, at_most_one (by_ns u s) attrs).
  { intros u1 s k1 a1 k2 a2 H1 H2 [Hp1 Hp2]%by_ns_true [Hp3 Hp4]%by_ns_true. eapply Hap; try done; congruence. }
  assert (Htw' : forall k b, In (k, b) attrs -> by_ns u l k = true -> k = nm).
  { intros k b Hin [Hp1 Hp2]%by_ns_true. pose proof (Htw attrs k b Hat Hin Hp1 Hp2) as Hk.
    destruct (C39_keyed_by_name h e attrs Hr Hat) as [_ Hkey]. destruct (Hkey k b Hin) as (Htb & Hnb & _).
    apply node_type_ok in Htb as (nb & Hb & Htb). unfold node_name, get_node in Hnb. rewrite Hb in Hnb. injection Hnb as Hnb.
    destruct (inv_node h HI b nb Hb) as (_ & _ & _ & _ & Hnm). unfold name_ok in Hnm. rewrite Htb in Hnm. destruct Hnm as [s Hs]. rewrite Hnb in Hs.
    apply name_new_ns_inv in Hn as (m & Hm & ->). cbn in Hnl. destruct k as [kn kp kl]. cbn in *. subst kn kl.
    pose proof (C09_print_parse _ _ Hs) as Hps. assert (s = q) as -> by (rewrite <- Hps, <- Hk; done).
    rewrite Hm in Hs. injection Hs as Hs. rewrite Hs. done. }
  assert (Hpn : by_ns u l nm = true) by (by apply by_ns_true).
  destruct (set_value_read E E' h h' e a nm v _ ne attrs nss nss' HE' W (by_ns u l) (Hau u l) Hpn Htw') as (Hl & Hv1 & Hv2).
  assert (Hget : get_attribute_ns E' h' e u l = value_of_attribute_node E' h' (Some a)).
  { unfold get_attribute_ns. erewrite get_attribute_node_ns_eq by done. cbn [rbind]. by rewrite Hl. }
  split.
  { erewrite has_attribute_ns_eq by done. f_equal. apply existsb_attr. exists nm, a. split; [|done]. apply hm_insert_iff; [done|]. by left. }
  split; [intros; rewrite Hget; by eapply Hv1|]. split; [intros; rewrite Hget; by eapply Hv2|]. split.
  { intros ls k1 a1 k2 a2 Hl' H1 H2 Hk0 Hk1 Hk2. rewrite Hat' in Hl'. injection Hl' as <-. apply hm_insert_iff in H1, H2; try done.
    destruct H1 as [[-> _]|[_ H1]], H2 as [[-> _]|[_ H2]]; [done| | |by eapply Hap].
    - symmetry. eapply Htw'; [done|]. apply by_ns_true. split; congruence.
    - eapply Htw'; [done|]. apply by_ns_true. split; congruence. }
  intros u' m Hm. assert (Hpm : by_ns u' m nm = false).
  { destruct (by_ns u' m nm) eqn:Hb; [|done]. apply by_ns_true in Hb as [H1 H2]. exfalso. apply Hm. congruence. }
  destruct (set_other_read E E' h h' e a nm v _ ne attrs nss nss' HE' HI W (by_ns u' m) (Hau u' m) Hpm) as (Hl2 & Hv).
  unfold get_attribute_ns. destruct (name_new_ns u' m) as [nm2|x|x|] eqn:Hm2.
  - erewrite (get_attribute_node_ns_eq E' h') by done. erewrite (get_attribute_node_ns_eq E' h) by done. cbn [rbind]. by rewrite Hl2.
  - unfold get_attribute_node_ns. rewrite (get_node_some _ _ _ He), (get_node_some _ _ _ He'). cbn [rbind]. rewrite Hm2.
    apply is_type_true in Hte as Ht1. change (is_type NElement (set_ext _ ne)) with (is_type NElement ne). rewrite Ht1. done.
  - unfold get_attribute_node_ns. rewrite (get_node_some _ _ _ He), (get_node_some _ _ _ He'). cbn [rbind]. rewrite Hm2.
    apply is_type_true in Hte as Ht1. change (is_type NElement (set_ext _ ne)) with (is_type NElement ne). rewrite Ht1. done.
  - unfold get_attribute_node_ns. rewrite (get_node_some _ _ _ He), (get_node_some _ _ _ He'). cbn [rbind]. rewrite Hm2.
    apply is_type_true in Hte as Ht1. change (is_type NElement (set_ext _ ne)) with (is_type NElement ne). rewrite Ht1. done.
Qed.
Print Assumptions C40_set_get_ns.
Example C40_ns_example : local_part (lit "p:b") (lit "b") /\
  let h' := (set_attribute_ns env0 1 (lit "urn:u") (lit "p:b") (lit "w") ex_attr).1 in
  set_attribute_ns env0 1 (lit "urn:u") (lit "p:b") (lit "w") ex_attr = (h', Ok tt) /\ get_attribute_ns env0 h' 1 (lit "urn:u") (lit "b") = Ok (Some (lit "w")).
Proof.
  split; [|by vm_compute]. split; [|right; exists (lit "p"); by vm_compute].
  intros H. by vm_compute in H; intuition.
Qed.
(** [has_attribute_ns] accepts a qualified name where [get_attribute_ns] does not. *)
Theorem C40_has_implies_get_ns_refuted : exists h e u q, reachable h /\ has_attribute_ns h e u q = Ok true /\ get_attribute_ns env0 h e u q = Ok None.
Proof. exists ex_attr, 1, (lit "urn:u"), (lit "p:b"). split; [exact ex_attr_reachable|]. by vm_compute. Qed.
Print Assumptions C40_has_implies_get_ns_refuted.

(** ** C41 *)
Lemma set_parent_id n : n_parent n = None -> set_parent None n = n.
Proof. destruct n. cbn. by intros ->. Qed.
Lemma attr_no_parent h a n : Inv h -> h_nodes h !! a = Some n -> n_type n = NAttribute -> n_parent n = None.
Proof.
  intros HI Ha Ht. destruct (inv_node h HI a n Ha) as (_ & _ & Hp & _). destruct (n_parent n) as [p|] eqn:Hpp; [|done].
  destruct (Hp p Hpp) as (_ & Hc & _). rewrite Ht in Hc. done.
Qed.
Lemma alive_upd h i n n' j : h_nodes h !! i = Some n -> alive (upd i n' h) j = alive h j.
Proof.
  intros Hi. apply eq_true_iff_eq. rewrite !alive_true. destruct (decide (j = i)) as [->|Hj]; [rewrite lookup_upd, Hi|by rewrite lookup_upd_ne by done].
  split; eauto.
Qed.
Lemma name_err_or s : (exists nm, name_from_str s = Ok nm) \/ (exists x, name_from_str s = Err x) \/ (exists x, name_from_str s = Panic x) \/ name_from_str s = Diverge.
Proof. destruct (name_from_str s); eauto. Qed.
Lemma remove_attribute_node_eq h e a ne na attrs nss : Inv h -> h_nodes h !! e = Some ne -> n_type ne = NElement -> n_ext ne = XElement attrs nss ->
  h_nodes h !! a = Some na -> n_type na = NAttribute ->
  remove_attribute_node e a h = (upd e (set_ext (XElement (hm_remove (n_name na) attrs) nss) ne) h, Ok a).
Proof.
  intros HI He Hte Hx Ha Hta. unfold remove_attribute_node. rewrite (bind_node _ ne) by done. apply is_type_true in Hte as Ht. rewrite Ht, Hx.
  assert (Hea : a <> e) by congruence. rewrite bool_decide_false by done. rewrite (bind_node _ na) by done.
  rewrite (bind_modifyM _ _ ne) by done. assert (Ha1 : forall n, h_nodes (upd e n h) !! a = Some na) by (intros n; by rewrite lookup_upd_ne by done).
  rewrite (bind_modifyM _ _ na) by done. rewrite (set_parent_id na) by (by eapply attr_no_parent). rewrite (upd_id a na) by done. done.
Qed.
(** What [remove_attribute] does, and what it does not. *)
Theorem C41_remove : forall E h h' e n r l, wf_env E -> reachable h -> node_type_of h e = Ok NElement -> attributes h e = Ok l ->
  printed_apart h e -> remove_attribute E e n h = (h', r) -> returned r -> r = Ok tt /\
  ((forall k a, In (k, a) l -> name_to_string k <> n) -> h' = h) /\
  has_attribute h' e n = Ok false /\
  (forall k a l', attributes h' e = Ok l' -> In (k, a) l' <-> In (k, a) l /\ name_to_string k <> n) /\
  only_changed h h' (eq e) /\
  (forall x ne ne', h_nodes h !! x = Some ne -> h_nodes h' !! x = Some ne' ->
     n_type ne' = n_type ne /\ n_name ne' = n_name ne /\ n_value ne' = n_value ne /\ n_parent ne' = n_parent ne /\ n_owner ne' = n_owner ne /\ n_children ne' = n_children ne) /\
  (forall a, owner_element h' a = owner_element h a) /\
  (forall d k, get_element_by_id h' d k = get_element_by_id h d k) /\
  (forall x p, get_namespace h' x p = get_namespace h x p).
Proof.
  intros E h h' e n r l HE Hr (ne & He & Hte)%node_type_ok Hl Hap H Hret. pose proof (reachable_inv h Hr) as HI.
  destruct (el_ext h e ne HI He Hte) as (attrs & nss & Hx). pose proof (attributes_el h e ne _ _ He Hte Hx) as Hat.
  rewrite Hat in Hl. injection Hl as <-. pose proof (C39_keyed_by_name h e attrs Hr Hat) as [Hnd Hkey]. apply is_type_true in Hte as Ht.
  assert (Hau : forall s, at_most_one (by_print s) attrs).
  { intros s k1 a1 k2 a2 H1 H2 Hp1%str_eqb_true Hp2%str_eqb_true. eapply Hap; try done. congruence. }
  unfold remove_attribute in H.
  assert (Habs : h' = h -> r = Ok tt -> has_attribute h e n = Ok false -> (forall k a, In (k, a) attrs -> name_to_string k <> n) ->
    r = Ok tt /\ ((forall k a, In (k, a) attrs -> name_to_string k <> n) -> h' = h) /\ has_attribute h' e n = Ok false /\
    (forall k a l', attributes h' e = Ok l' -> In (k, a) l' <-> In (k, a) attrs /\ name_to_string k <> n) /\
    only_changed h h' (eq e) /\
    (forall x ne ne', h_nodes h !! x = Some ne -> h_nodes h' !! x = Some ne' ->
     n_type ne' = n_type ne /\ n_name ne' = n_name ne /\ n_value ne' = n_value ne /\ n_parent ne' = n_parent ne /\ n_owner ne' = n_owner ne /\ n_children ne' = n_children ne) /\
    (forall a, owner_element h' a = owner_element h a) /\ (forall d k, get_element_by_id h' d k = get_element_by_id h d k) /\
    (forall x p, get_namespace h' x p = get_namespace h x p)).
  { intros -> -> Hha Hno. split_and!; try done.
    - intros k a l' Hl'. rewrite Hat in Hl'. injection Hl' as <-. split; [|tauto]. intros Hin. split; [done|eauto].
    - intros x n1 n2 H1 H2. rewrite H1 in H2. injection H2 as ->. done. }
  destruct (name_err_or n) as [(nm & Hn)|[(x & Hn)|[(x & Hn)|Hn]]].
  2:{ assert (Hg : get_attribute_node E h e n = Ok None) by (unfold get_attribute_node; rewrite (get_node_some _ _ _ He); cbn [rbind]; by rewrite Ht, Hn).
      rewrite (bind_read _ _ _ _ Hg) in H. injection H as <- <-. apply Habs; [done|done| |].
      - unfold has_attribute. rewrite (get_node_some _ _ _ He); cbn [rbind]. by rewrite Ht, Hn.
      - intros k a Hin Hk. destruct (Hkey k a Hin) as (Htb & Hnb & _).
        apply node_type_ok in Htb as (nb & Hb & Htb). unfold node_name, get_node in Hnb. rewrite Hb in Hnb. injection Hnb as Hnb.
        destruct (inv_node h HI a nb Hb) as (_ & _ & _ & _ & Hnm). unfold name_ok in Hnm. rewrite Htb in Hnm. destruct Hnm as [s Hs]. rewrite Hnb in Hs.
        pose proof (C09_print_parse _ _ Hs) as Hps. assert (s = n) as -> by (rewrite <- Hps, <- Hk; done). congruence. }
  2,3: assert (Hg : returned (get_attribute_node E h e n) -> False) by (unfold get_attribute_node; rewrite (get_node_some _ _ _ He); cbn [rbind]; by rewrite Ht, Hn);
      unfold bind, lift in H; destruct (get_attribute_node E h e n) as [o|y|y|]; [destruct (Hg Logic.I)|destruct (Hg Logic.I)|..]; injection H as <- <-; done.
  pose proof (get_attribute_node_eq E h e ne attrs nss n nm He Hte Hx Hn) as Hg. rewrite (bind_read _ _ _ _ Hg) in H.
  destruct (exists_or_none (by_print n) attrs) as [(k & a & Hin & Hp)|Hno].
  2:{ rewrite (lookup_attr_none E _ _ HE Hno) in H. injection H as <- <-. apply Habs; [done|done| |].
      - erewrite has_attribute_eq by done. f_equal. apply not_true_iff_false. rewrite existsb_attr. intros (k & a & Hin & Hp). rewrite (Hno k a Hin) in Hp. done.
      - intros k a Hin Hk. pose proof (Hno k a Hin) as Hf. apply str_eqb_false in Hf. done. }
  rewrite (lookup_attr_some E _ _ k a HE Hnd (Hau n) Hin Hp) in H. apply str_eqb_true in Hp.
  destruct (Hkey k a Hin) as (Hta & Hna & _). apply node_type_ok in Hta as (na & Ha & Hta).
  unfold node_name in Hna. rewrite (get_node_some _ _ _ Ha) in Hna. injection Hna as Hna.
  rewrite (bind_ok _ _ _ _ _ (remove_attribute_node_eq h e a ne na attrs nss HI He Hte Hx Ha Hta)) in H. injection H as <- <-. rewrite Hna.
  set (ne' := set_ext _ ne). assert (He' : h_nodes (upd e ne' h) !! e = Some ne') by apply lookup_upd.
  assert (Hat' : attributes (upd e ne' h) e = Ok (hm_remove k attrs)) by (by eapply attributes_el).
  assert (Hmem : forall k1 a1, In (k1, a1) (hm_remove k attrs) <-> In (k1, a1) attrs /\ name_to_string k1 <> n).
  { intros k1 a1. rewrite (hm_remove_iff _ _ _ _ Hnd). split; intros [H1 H2]; (split; [try done|try done]).
    - intros Hk1. apply H1. eapply (Hap attrs); try done. congruence.
    - congruence. }
  split_and!; try done.
  - intros Hno. destruct (Hno k a Hin Hp).
  - erewrite has_attribute_eq by done. f_equal. apply not_true_iff_false. rewrite existsb_attr. intros (k1 & a1 & Hin1 & Hp1%str_eqb_true).
    apply Hmem in Hin1 as [_ Hin1]. done.
  - intros k1 a1 l' Hl'. rewrite Hat' in Hl'. injection Hl' as <-. apply Hmem.
  - split; [done|]. intros i Hi. apply lookup_upd_ne. congruence.
  - intros x n1 n2 H1 H2. destruct (decide (x = e)) as [->|Hxe]; [|rewrite lookup_upd_ne in H2 by done; rewrite H1 in H2; by injection H2 as ->].
    rewrite He' in H2. injection H2 as <-. rewrite He in H1. injection H1 as <-. split_and!; done.
  - intros b. unfold owner_element, get_node. destruct (decide (b = e)) as [->|Hb].
    + rewrite He', He. cbn. by rewrite Hx.
    + rewrite lookup_upd_ne by done. destruct (h_nodes h !! b) as [nb|]; [|done]. cbn [rbind]. destruct (n_ext nb) as [|o| | | | |]; try done. f_equal.
      destruct o as [o|]; [|done]. cbn [upgrade]. rewrite (alive_upd h e ne ne' _ He). done.
  - intros b s. unfold get_element_by_id, get_node. destruct (decide (b = e)) as [->|Hb].
    + rewrite He', He. cbn. by rewrite Hx.
    + rewrite lookup_upd_ne by done. destruct (h_nodes h !! b) as [nb|]; [|done]. cbn [rbind]. destruct (n_ext nb) as [| |? ? m ?| | | |]; try done. f_equal.
      destruct (hm_get s m) as [o|]; [|done]. cbn [upgrade]. rewrite (alive_upd h e ne ne' _ He). done.
  - intros b s. assert (Hadd : add_namespaces (upd e ne' h) b = add_namespaces h b).
    { assert (Hb : h_nodes (upd e ne' h) !! b = h_nodes h !! b \/ b = e) by (destruct (decide (b = e)); [by right|left; by apply lookup_upd_ne]).
      assert (Hod : owner_document (upd e ne' h) b = owner_document h b).
      { unfold owner_document, get_node. destruct Hb as [Hb| ->]; [rewrite Hb|rewrite He', He; cbn [rbind n_owner set_ext]].
        - destruct (h_nodes h !! b) as [nb|]; [|done]. cbn [rbind]. f_equal. destruct (n_owner nb) as [o|]; [|done]. cbn [upgrade]. by rewrite (alive_upd h e ne ne' _ He).
        - f_equal. change (n_owner ne') with (n_owner ne). destruct (n_owner ne) as [o|]; [|done]. cbn [upgrade]. by rewrite (alive_upd h e ne ne' _ He). }
      unfold add_namespaces. rewrite Hod. destruct (owner_document h b) as [[o|]| | |]; try done. cbn [rbind].
      unfold get_node. destruct (decide (o = e)) as [->|Hoe]; [rewrite He', He; cbn; by rewrite Hx|by rewrite lookup_upd_ne by done]. }
    unfold get_namespace. rewrite Hadd. destruct (add_namespaces h b) as [[]| | |]; try done. cbn [rbind negb].
    unfold get_node. destruct (decide (b = e)) as [->|Hb]; [rewrite He', He; cbn; unfold own_namespaces; by rewrite Hx|by rewrite lookup_upd_ne by done].
Qed.
Print Assumptions C41_remove.
Example C41_example : let h' := (remove_attribute env0 1 (lit "id") ex_attr).1 in
  remove_attribute env0 1 (lit "id") ex_attr = (h', Ok tt) /\ has_attribute ex_attr 1 (lit "id") = Ok true /\ has_attribute h' 1 (lit "id") = Ok false /\
  get_element_by_id h' 0 (lit "k1") = Ok (Some 1) /\ owner_element h' 5 = Ok (Some 1).
Proof. by vm_compute. Qed.
(** With two attributes printed alike one of them remains. *)
Theorem C41_any_element_refuted : exists h h' e n, reachable h /\ remove_attribute env0 e n h = (h', Ok tt) /\ has_attribute h' e n = Ok true.
Proof.
  pose (h := (set_attribute env0 1 (lit "p:b") (lit "w") ex_attr).1).
  exists h, (remove_attribute env0 1 (lit "p:b") h).1, 1, (lit "p:b"). split; [|split; [by vm_compute|by vm_compute]].
  apply (run0_reachable (ex_attr_ops ++ [OSetAttribute 1 (lit "p:b") (lit "w")])). by vm_compute.
Qed.

(** ** C42 *)
Lemma set_attribute_node_keeps E h h' e a r : Inv h -> set_attribute_node E e a h = (h', r) -> returned r -> forall e1 l1, e1 <> e ->
  attributes h e1 = Ok l1 -> attributes h' e1 = Ok l1.
Proof.
  intros HI H Hr e1 l1 Hne Hl. destruct (set_attribute_node_inv E h h' e a r HI H Hr) as (ne & na & He & Ha & [(-> & _)|[(_ & _ & -> & _)|Hm]]); [done|done|].
  destruct Hm as (Hte & Hta & Ho & attrs & nss & nss' & d & nd & Hx & Hod & Hd & Htd & _ & Hreg).
  assert (Hde : d <> e) by congruence. assert (Hda : d <> a) by congruence. assert (Hea : e <> a) by congruence.
  assert (Hd1 : h_nodes (with_attr h e a ne na attrs nss') !! d = Some nd) by (unfold with_attr; rewrite !lookup_upd_ne by congruence; done).
  destruct (registered_frame _ _ _ _ _ _ _ _ _ _ Hreg Hd1) as (_ & Hf & _ & nd' & Hd' & Hs & _).
  apply attributes_ok in Hl as (n1 & Hn1 & ->). apply attributes_ok.
  destruct (decide (e1 = d)) as [->|H1].
  { exists nd'. split; [done|]. rewrite Hd in Hn1. injection Hn1 as <-. injection Hs as Hs _ _. unfold is_type. rewrite Hs, Htd. done. }
  destruct (decide (e1 = a)) as [->|H2].
  { eexists. split; [rewrite Hf by done; unfold with_attr; rewrite lookup_upd_ne by done; apply lookup_upd|].
    rewrite Ha in Hn1. injection Hn1 as <-. cbn. unfold is_type. cbn. rewrite Hta. done. }
  exists n1. split; [|done]. rewrite Hf by done. unfold with_attr. rewrite !lookup_upd_ne by done. done.
Qed.
Lemma set_attribute_node_listed E h h' e a r x : Inv h -> set_attribute_node E e a h = (h', r) -> r = Ok x \/ r = Err Syntax ->
  (forall y, r = Ok y -> y = a) /\ owner_element h' a = Ok (Some e) /\ exists k l, node_name h' a = Ok k /\ node_name h a = Ok k /\ attributes h' e = Ok l /\ In (k, a) l.
Proof.
  intros HI H Hr. destruct (set_attribute_node_inv E h h' e a r HI H) as (ne & na & He & Ha & [(-> & -> & _)|[(_ & _ & -> & -> & _)|Hm]]); [by destruct Hr as [-> | ->]|by destruct Hr..|].
  destruct Hm as (Hte & Hta & Ho & attrs & nss & nss' & d & nd & Hx & Hod & Hd & Htd & _ & Hreg).
  assert (Hde : d <> e) by congruence. assert (Hda : d <> a) by congruence. assert (Hea : e <> a) by congruence.
  assert (Hd1 : h_nodes (with_attr h e a ne na attrs nss') !! d = Some nd) by (unfold with_attr; rewrite !lookup_upd_ne by congruence; done).
  assert (Hra : forall y, r = Ok y -> y = a) by (destruct Hreg; intros y Hy; try done; by injection Hy).
  destruct (registered_frame _ _ _ _ _ _ _ _ _ _ Hreg Hd1) as (_ & Hf & _). split; [done|].
  assert (Ha' : h_nodes h' !! a = Some (set_ext (XAttribute (Some e)) na)) by (rewrite Hf by done; unfold with_attr; rewrite lookup_upd_ne by done; apply lookup_upd).
  assert (He' : h_nodes h' !! e = Some (set_ext (XElement (hm_insert (n_name na) a attrs) nss') ne)) by (rewrite Hf by done; apply lookup_upd).
  split.
  { unfold owner_element. rewrite (get_node_some _ _ _ Ha'). cbn [rbind n_ext set_ext]. f_equal. apply upgrade_some. eauto. }
  exists (n_name na), (hm_insert (n_name na) a attrs). unfold node_name. rewrite (get_node_some _ _ _ Ha'), (get_node_some _ _ _ Ha). split; [done|]. split; [done|].
  split; [by eapply attributes_el|]. destruct (inv_node h HI e ne He) as (Hex & _). unfold ext_ok in Hex. rewrite Hx in Hex. destruct Hex as (_ & Hnd & _).
  apply hm_insert_iff; [done|]. by left.
Qed.
Theorem C42_owner_element : forall E h h' e a x, reachable h -> set_attribute_node E e a h = (h', Ok x) ->
  x = a /\ owner_element h' a = Ok (Some e) /\ (exists k l, node_name h' a = Ok k /\ attributes h' e = Ok l /\ In (k, a) l) /\
  forall e1 l1, e1 <> e -> attributes h e1 = Ok l1 -> attributes h' e1 = Ok l1.
Proof.
  intros E h h' e a x Hr H. pose proof (reachable_inv h Hr) as HI.
  destruct (set_attribute_node_listed E h h' e a _ x HI H (or_introl eq_refl)) as (H1 & H2 & k & l & H3 & _ & H4 & H5).
  split; [by apply H1|]. split; [done|]. split; [eauto|]. by eapply set_attribute_node_keeps.
Qed.
Print Assumptions C42_owner_element.
(** Any attribute of the same document is accepted, in use or not, unless it is a namespace declaration or an id. *)
Theorem C42_not_rejected : forall E h e a k d, reachable h -> node_type_of h e = Ok NElement -> node_type_of h a = Ok NAttribute ->
  owner_link h e = Some d -> owner_link h a = Some d -> alive h d = true -> node_name h a = Ok k ->
  nm_ns k <> Some xmlns_uri -> nm_local k <> lit "id" -> exists h', set_attribute_node E e a h = (h', Ok a).
Proof.
  intros E h e a k d Hr (ne & He & Hte)%node_type_ok (na & Ha & Hta)%node_type_ok Hoe Hoa Hal Hk Hns Hid. pose proof (reachable_inv h Hr) as HI.
  unfold owner_link in Hoe, Hoa. rewrite He in Hoe. rewrite Ha in Hoa. unfold node_name in Hk. rewrite (get_node_some _ _ _ Ha) in Hk. injection Hk as Hk.
  apply alive_true in Hal as (nd & Hd). destruct (owner_some h e ne HI He ltac:(congruence) ltac:(congruence)) as (d' & Hd1 & _ & Hdt).
  rewrite Hoe in Hd1. injection Hd1 as <-. specialize (Hdt nd Hd).
  assert (Hea : e <> a) by congruence. assert (Hde : d <> e) by congruence. assert (Hda : d <> a) by congruence.
  destruct (attr_ext h a na HI Ha Hta) as (oa & Hxa). destruct (el_ext h e ne HI He Hte) as (attrs & nss & Hxe).
  destruct (doc_ext h d nd HI Hd Hdt) as (decl & dt & m & o & Hxd).
  unfold set_attribute_node. rewrite (bind_node _ ne), (bind_node _ na) by done. apply is_type_true in Hte as Ht1, Hta as Ht2. rewrite Ht1, Ht2. cbn [andb negb].
  assert (Hup : forall h1, (exists n, h_nodes h1 !! d = Some n) -> upgrade h1 (Some d) = Some d) by (intros h1 ?; by apply upgrade_some).
  rewrite (bind_read _ tt).
  2:{ unfold check_same_document. rewrite (get_node_some _ _ _ He), (get_node_some _ _ _ Ha). cbn [rbind].
      assert (is_type NDocument ne = false) as -> by (apply is_type_false; congruence). rewrite Hoe, Hoa, (Hup h) by eauto. cbn. by rewrite bool_decide_true. }
  rewrite Hxa, (bind_modifyM _ _ na) by done.
  assert (is_namespace_attribute (n_name na) = false) as ->.
  { apply not_true_iff_false. intros Hn%C12_namespace_attribute. rewrite Hk in Hn. by destruct Hn. }
  rewrite bind_ret, (bind_node _ ne) by (by rewrite lookup_upd_ne by congruence). rewrite Hxe.
  rewrite (bind_modifyM _ _ ne) by (by rewrite lookup_upd_ne by congruence). set (h2 := upd e _ _).
  assert (Ha2 : h_nodes h2 !! a = Some (set_ext (XAttribute (Some e)) na)) by (unfold h2; rewrite lookup_upd_ne by congruence; apply lookup_upd).
  assert (Hd2 : h_nodes h2 !! d = Some nd) by (unfold h2; rewrite !lookup_upd_ne by congruence; done).
  rewrite (bind_read _ d).
  2:{ unfold owner_document. rewrite (get_node_some _ _ _ Ha2). cbn [rbind n_owner set_ext]. rewrite Hoa, (Hup h2) by eauto. done. }
  rewrite !bool_decide_false by done. cbn [orb]. rewrite (bind_node _ nd) by done.
  match goal with |- context [is_id_attribute (n_name na) ?b] => assert (is_id_attribute (n_name na) b = false) as -> end.
  { apply not_true_iff_false. rewrite Hk. destruct (C12_id_attribute k) as (H1 & H2 & H3).
    match goal with |- is_id_attribute k ?b <> true => destruct b end; [by rewrite H2|]. intros H4%H1. by destruct H4. }
  eexists. reflexivity.
Qed.
Print Assumptions C42_not_rejected.
(** So one attribute can be in two elements. *)
Theorem C42_shared : forall E h h' e1 e2 a x l1, reachable h -> attributes h e1 = Ok l1 -> In a (map snd l1) -> e1 <> e2 ->
  set_attribute_node E e2 a h = (h', Ok x) ->
  (exists l, attributes h' e1 = Ok l /\ In a (map snd l)) /\ (exists l, attributes h' e2 = Ok l /\ In a (map snd l)) /\ owner_element h' a = Ok (Some e2).
Proof.
  intros E h h' e1 e2 a x l1 Hr Hl Hin Hne H. destruct (C42_owner_element E h h' e2 a x Hr H) as (-> & Ho & (k & l & _ & Hl2 & Hin2) & Hk).
  split; [eauto|]. split; [|done]. exists l. split; [done|]. apply in_map_iff. by exists (k, a).
Qed.
Print Assumptions C42_shared.
Example C42_example : attributes ex_attr 1 = Ok [(mkName None None (lit "a"), 3); (mkName None None (lit "id"), 5); (mkName (Some (lit "urn:u")) (Some (lit "p")) (lit "b"), 7)] /\
  let h' := (set_attribute_node env0 8 3 ex_attr).1 in set_attribute_node env0 8 3 ex_attr = (h', Ok 3) /\
  owner_element ex_attr 3 = Ok (Some 1) /\ owner_element h' 3 = Ok (Some 8) /\ has_attribute h' 1 (lit "a") = Ok true /\ has_attribute h' 8 (lit "a") = Ok true.
Proof. by vm_compute. Qed.

(** ** C43 *)
(** The entry of [d] for [k], dead or alive. *)
Definition id_entry (h : heap) (d : id) (k : str) (e : id) : Prop := (d < h_next h)%nat /\ (e < h_next h)%nat /\
  forall n, h_nodes h !! d = Some n -> exists decl dt m o, n_ext n = XDocument decl dt m o /\ hm_get k m = Some e.
Lemma prim_id_entry l h h' d k e : prim l h h' -> Inv h -> id_entry h d k e -> id_entry h' d k e.
Proof.
  intros Hp HI (Hd & He & H).
  assert (G : forall i n n', h_nodes h !! i = Some n -> n_ext n' = n_ext n -> forall m, h_nodes (upd i n' h) !! d = Some m -> exists decl dt q o, n_ext m = XDocument decl dt q o /\ hm_get k q = Some e).
  { intros i n n' Hi Hx m Hm. destruct (decide (d = i)) as [->|Hdi]; [|rewrite lookup_upd_ne in Hm by done; by apply H].
    rewrite lookup_upd in Hm. injection Hm as <-. rewrite Hx. by apply H. }
  destruct Hp as [h n Hok Hpn|h i n v Hi|h p c np nc q Hp Hc Hpc|h p c np nc q Hp Hc Hq|h p c np nc q Hp Hc Hq|h i n Hi|h i n x Hi Hx|h i n Hi|h l Hl].
  - split; [cbn; lia|]. split; [cbn; lia|]. intros m Hm. unfold allocd in Hm. cbn in Hm. rewrite lookup_insert_ne in Hm by lia. by apply H.
  - split; [done|]. split; [done|]. by eapply G.
  - split; [done|]. split; [done|]. intros m Hm. destruct (decide (d = p)) as [->|Hdp]; [rewrite lookup_upd in Hm; injection Hm as <-; cbn; by apply H|].
    rewrite lookup_upd_ne in Hm by done. by eapply (G c nc); [..|exact Hm].
  - split; [done|]. split; [done|]. intros m Hm. destruct (decide (d = c)) as [->|Hdp]; [rewrite lookup_upd in Hm; injection Hm as <-; cbn; by apply H|].
    rewrite lookup_upd_ne in Hm by done. by eapply (G p np); [..|exact Hm].
  - split; [done|]. split; [done|]. intros m Hm. destruct (decide (d = c)) as [->|Hdp]; [rewrite lookup_upd in Hm; injection Hm as <-; cbn; by apply H|].
    rewrite lookup_upd_ne in Hm by done. by eapply (G p np); [..|exact Hm].
  - split; [done|]. split; [done|]. by eapply G.
  - split; [done|]. split; [done|]. intros m Hm. destruct (decide (d = i)) as [->|Hdp]; [|rewrite lookup_upd_ne in Hm by done; by apply H].
    rewrite lookup_upd in Hm. injection Hm as <-. cbn. destruct (H n Hi) as (decl & dt & q & o & Hxn & Hg). rewrite Hxn in Hx. inversion Hx; subst.
    + do 4 eexists. split; [done|]. rewrite hm_get_insert_ne; [done|]. intros ->. congruence.
    + eauto 10.
  - split; [done|]. split; [done|]. by eapply G.
  - split; [done|]. split; [done|]. intros m [_ Hm]%lookup_dropped. by apply H.
Qed.
Lemma isteps_id_entry L h h' d k e : isteps L h h' -> Inv h -> id_entry h d k e -> id_entry h' d k e.
Proof.
  intros H. induction H as [|h1 h2 h3 (l & _ & Hp) _ IH]; [done|]. intros HI H1. apply IH; [by eapply prim_inv|]. by eapply prim_id_entry.
Qed.
Lemma id_entry_start h d k e : Inv h -> get_element_by_id h d k = Ok (Some e) -> id_entry h d k e.
Proof.
  intros HI H. unfold get_element_by_id in H. destruct (get_node h d) as [n| | |] eqn:Hn; try done. apply get_node_ok in Hn. cbn [rbind] in H. destruct (n_ext n) as [| |decl dt m o| | | |] eqn:Hx; try done.
  injection H as H. apply upgrade_some in H as (Hg & ne & He). split; [by eapply inv_lt|]. split; [by eapply inv_lt|].
  intros n' Hn'. rewrite Hn in Hn'. injection Hn' as <-. eauto 10.
Qed.
Theorem C43_forever : forall h h' d k e, reachable h -> get_element_by_id h d k = Ok (Some e) -> later h h' -> alive h' d = true ->
  (alive h' e = true -> get_element_by_id h' d k = Ok (Some e)) /\ (alive h' e = false -> get_element_by_id h' d k = Ok None).
Proof.
  intros h h' d k e Hr H Hl Hd. pose proof (reachable_inv h Hr) as HI.
  pose proof (isteps_id_entry _ _ _ _ _ _ (later_isteps h h' Hr Hl) HI (id_entry_start h d k e HI H)) as (_ & _ & Hn).
  apply alive_true in Hd as (n & Hd). destruct (Hn n Hd) as (decl & dt & m & o & Hx & Hg).
  unfold get_element_by_id. rewrite (get_node_some _ _ _ Hd). cbn [rbind]. rewrite Hx, Hg. cbn [upgrade]. by split; intros ->.
Qed.
Print Assumptions C43_forever.
Lemma counts_as_id_lax h d nd k : h_nodes h !! d = Some nd -> (exists decl dt m o, n_ext nd = XDocument decl dt m o) -> counts_as_id h d k <-> is_id_attribute k (has_assume_ids (opts_of nd)) = true.
Proof.
  intros Hd (decl & dt & m & o & Hx). unfold opts_of. rewrite Hx. destruct (C12_id_attribute k) as (H1 & H2 & H3). unfold counts_as_id. split.
  - intros (Hl & Hc). destruct (has_assume_ids o) eqn:Ho; [by apply H2|]. apply H1. split; [done|]. destruct Hc as [Hc|[Hc|(n & a & b & c & o' & Hn & Hxn & Ho')]]; [by left|by right|].
    rewrite Hd in Hn. injection Hn as <-. rewrite Hx in Hxn. injection Hxn as <- <- <- <-. congruence.
  - destruct (has_assume_ids o) eqn:Ho.
    + intros Hl%H2. split; [done|]. right. right. eauto 10.
    + intros [Hl Hc]%H1. split; [done|]. tauto.
Qed.
(** Registering the value again, for whatever element, is an error -- for ever. *)
Theorem C43_again : forall E h h1 h2 d k e x a nm r, reachable h -> get_element_by_id h d k = Ok (Some e) -> later h h1 ->
  node_type_of h1 x = Ok NElement -> node_type_of h1 a = Ok NAttribute -> owner_link h1 x = Some d -> owner_link h1 a = Some d ->
  node_name h1 a = Ok nm -> counts_as_id h1 d nm -> attr_value E h1 a = Ok (Some k) ->
  set_attribute_node E x a h1 = (h2, r) -> returned r -> r = Err Syntax.
Proof.
  intros E h h1 h2 d k e x a nm r Hr H Hl (nx & Hx & Htx)%node_type_ok (na & Ha & Hta)%node_type_ok Hox Hoa Hnm Hc Hv Hs Hret.
  pose proof (reachable_inv h Hr) as HI. pose proof (reachable_inv h1 (later_reachable h h1 Hr Hl)) as HI1.
  pose proof (isteps_id_entry _ _ _ _ _ _ (later_isteps h h1 Hr Hl) HI (id_entry_start h d k e HI H)) as (_ & _ & Hn).
  unfold owner_link in Hox, Hoa. rewrite Hx in Hox. rewrite Ha in Hoa. unfold node_name in Hnm. rewrite (get_node_some _ _ _ Ha) in Hnm. injection Hnm as Hnm.
  destruct (set_attribute_node_inv E h1 h2 x a r HI1 Hs Hret) as (nx' & na' & Hx' & Ha' & Hm).
  rewrite Hx in Hx'. injection Hx' as <-. rewrite Ha in Ha'. injection Ha' as <-. destruct Hm as [(_ & _ & Hno)|[(_ & _ & _ & _ & Hno)|Hm]]; [tauto|congruence|].
  destruct Hm as (_ & _ & _ & attrs & nss & nss' & d' & nd & Hxx & Hod & Hd & Htd & _ & Hreg). rewrite Hox in Hod. injection Hod as <-.
  destruct (Hn nd Hd) as (decl & dt & m & o & Hxd & Hg). apply (counts_as_id_lax h1 d nd nm Hd) in Hc; [|eauto]. rewrite <- Hnm in Hc.
  destruct Hreg as [Hf|decl' dt' m' o' v _ Hxd' Hv' Hg'|]; [congruence| |done]. rewrite Hxd in Hxd'. injection Hxd' as <- <- <- <-. congruence.
Qed.
Print Assumptions C43_again.
Theorem C43_registers : forall E h h' d k e a nm, reachable h -> owner_link h e = Some d -> node_name h a = Ok nm -> counts_as_id h d nm ->
  attr_value E h a = Ok (Some k) -> set_attribute_node E e a h = (h', Ok a) ->
  get_element_by_id h d k = Ok None /\ get_element_by_id h' d k = Ok (Some e).
Proof.
  intros E h h' d k e a nm Hr Hoe Hnm Hc Hv H. pose proof (reachable_inv h Hr) as HI.
  destruct (set_attribute_node_inv E h h' e a _ HI H Logic.I) as (ne & na & He & Ha & [(_ & Hm & _)|[(_ & _ & _ & Hm & _)|Hm]]); [done|done|].
  destruct Hm as (Hte & Hta & Ho & attrs & nss & nss' & d' & nd & Hx & Hod & Hd & Htd & _ & Hreg).
  unfold owner_link in Hoe. rewrite He, Hod in Hoe. injection Hoe as ->. unfold node_name in Hnm. rewrite (get_node_some _ _ _ Ha) in Hnm. injection Hnm as Hnm.
  apply (counts_as_id_lax h d nd nm Hd) in Hc; [|eapply doc_ext; eauto]. rewrite <- Hnm in Hc.
  assert (Hde : d <> e) by congruence. inversion Hreg as [Hf|decl' dt' m' o' v Hid Hxd' Hv' Hg' Hh'|]; subst; [congruence|].
  rewrite Hv in Hv'. injection Hv' as <-. unfold get_element_by_id. rewrite (get_node_some _ _ _ Hd). cbn [rbind]. rewrite Hxd', Hg'. split; [done|].
  rewrite (get_node_some _ d _ (lookup_upd _ _ _)). cbn [rbind n_ext set_ext]. rewrite hm_get_insert. f_equal. apply upgrade_some. split; [done|].
  rewrite lookup_upd_ne by congruence. unfold with_attr. rewrite lookup_upd. eauto.
Qed.
Print Assumptions C43_registers.
Example C43_example : get_element_by_id ex_attr 0 (lit "k1") = Ok (Some 1) /\
  let h1 := default empty_heap (run env0 [OSetAttribute 1 (lit "id") (lit "k2"); ORemoveAttribute 1 (lit "id"); OCreateAttributeWith 0 (lit "id") (lit "k1")] ex_attr) in
  run env0 [OSetAttribute 1 (lit "id") (lit "k2"); ORemoveAttribute 1 (lit "id"); OCreateAttributeWith 0 (lit "id") (lit "k1")] ex_attr = Some h1 /\
  get_element_by_id h1 0 (lit "k1") = Ok (Some 1) /\ get_element_by_id h1 0 (lit "k2") = Ok (Some 1) /\
  attr_value env0 h1 12 = Ok (Some (lit "k1")) /\ (set_attribute_node env0 8 12 h1).2 = Err Syntax /\ counts_as_id h1 0 (mkName None None (lit "id")).
Proof.
  split; [by vm_compute|]. split; [by vm_compute|]. split; [by vm_compute|]. split; [by vm_compute|]. split; [by vm_compute|]. split; [by vm_compute|].
  split; [done|]. right. right. do 5 eexists. split; [by vm_compute|]. split; [by vm_compute|]. by vm_compute.
Qed.

(** ** C44 *)
Theorem C44_node_added_anyway : forall E h h' e a, reachable h -> set_attribute_node E e a h = (h', Err Syntax) ->
  owner_element h' a = Ok (Some e) /\ exists k l, node_name h a = Ok k /\ attributes h' e = Ok l /\ In (k, a) l.
Proof.
  intros E h h' e a Hr H. pose proof (reachable_inv h Hr) as HI.
  destruct (set_attribute_node_listed E h h' e a _ a HI H (or_intror eq_refl)) as (_ & H2 & k & l & _ & H3 & H4 & H5). eauto 10.
Qed.
Print Assumptions C44_node_added_anyway.
Theorem C44_added_anyway : forall E h h' e n nm v, reachable h -> node_type_of h e = Ok NElement -> plain_name n nm ->
  set_attribute E e n v h = (h', Err Syntax) -> has_attribute h' e n = Ok true.
Proof.
  intros E h h' e n nm v Hr (ne & He & Hte)%node_type_ok Hn%C08_accepts H. pose proof (reachable_inv h Hr) as HI.
  unfold set_attribute in H. rewrite Hn in H. unfold bind at 1, lift in H.
  destruct (set_new_attribute_inv E h h' e ne nm v _ HI He Hte (parsed_from_str _ _ Hn) H Logic.I) as (a & attrs & nss & nss' & W).
  pose proof (ws_e' _ _ _ _ _ _ _ _ _ _ _ _ W) as He'. pose proof (ws_nodup _ _ _ _ _ _ _ _ _ _ _ _ W) as Hnd.
  erewrite has_attribute_eq by done. f_equal. apply existsb_attr. exists nm, a. split; [apply hm_insert_iff; [done|]; by left|].
  apply str_eqb_true. by apply C09_print_parse.
Qed.
Print Assumptions C44_added_anyway.
(** A failing call on a good name always means the id is taken. *)
Theorem C44_cause : forall E h h' e a d, reachable h -> set_attribute_node E e a h = (h', Err Syntax) -> owner_link h e = Some d ->
  exists k nm, attr_value E h a = Ok (Some k) /\ node_name h a = Ok nm /\ counts_as_id h d nm /\
    exists n decl dt m o x, h_nodes h !! d = Some n /\ n_ext n = XDocument decl dt m o /\ In (k, x) m.
Proof.
  intros E h h' e a d Hr H Hoe. pose proof (reachable_inv h Hr) as HI.
  destruct (set_attribute_node_inv E h h' e a _ HI H Logic.I) as (ne & na & He & Ha & [(_ & Hm & _)|[(_ & _ & _ & Hm & _)|Hm]]); [done|done|].
  destruct Hm as (Hte & Hta & Ho & attrs & nss & nss' & d' & nd & Hx & Hod & Hd & Htd & _ & Hreg).
  unfold owner_link in Hoe. rewrite He, Hod in Hoe. injection Hoe as ->.
  inversion Hreg as [| |decl dt m o v x Hid Hxd Hv Hg]; subst. exists v, (n_name na). split; [done|].
  unfold node_name. rewrite (get_node_some _ _ _ Ha). split; [done|]. split; [by apply (counts_as_id_lax h d nd _ Hd); eauto 10|].
  exists nd, decl, dt, m, o, x. split; [done|]. split; [done|]. by apply hm_get_in.
Qed.
Print Assumptions C44_cause.
Example C44_example : let h' := (set_attribute env0 8 (lit "id") (lit "k1") ex_attr).1 in
  set_attribute env0 8 (lit "id") (lit "k1") ex_attr = (h', Err Syntax) /\ has_attribute ex_attr 8 (lit "id") = Ok false /\ has_attribute h' 8 (lit "id") = Ok true /\
  get_element_by_id h' 0 (lit "k1") = Ok (Some 1).
Proof. by vm_compute. Qed.
