(** * ProofElem: what the attribute calls do to the heap *)
From Coq Require Import Lia.
From Verif Require Import SpecTree ProofText ProofName ProofAttr History ProofInv ProofSteps ProofOps ProofTree.

(** ** Computations *)
Lemma bind_ok {A B} (m : M A) (k : A -> M B) h h1 a : m h = (h1, Ok a) -> bind m k h = k a h1.
Proof. intros H. unfold bind. by rewrite H. Qed.
Lemma bind_err {A B} (m : M A) (k : A -> M B) h h1 e : m h = (h1, Err e) -> bind m k h = (h1, Err e).
Proof. intros H. unfold bind. by rewrite H. Qed.
Lemma lift_ok {A} (f : heap -> res A) a h : f h = Ok a -> lift f h = (h, Ok a).
Proof. intros H. unfold lift. by rewrite H. Qed.
Lemma bind_read {A B} (f : heap -> res A) a (k : A -> M B) h : f h = Ok a -> bind (lift f) k h = k a h.
Proof. intros H. apply bind_ok. by apply lift_ok. Qed.
Lemma bind_node {B} i n (k : node -> M B) h : h_nodes h !! i = Some n -> bind (getM i) k h = k n h.
Proof. intros H. apply (bind_read (fun h => get_node h i)). by apply get_node_some. Qed.

(** ** Attribute values depend on a few fields only *)
Definition view (n : node) :=
  (n_type n, n_value n, n_owner n, n_children n,
   match n_ext n with XDocument _ dt _ _ => dt | _ => None end,
   match n_ext n with XDocumentType es _ _ _ _ => es | _ => [] end).
Definition same_view (h h' : heap) : Prop :=
  (h_next h <= h_next h')%nat /\ forall j, (j < h_next h)%nat -> view <$> h_nodes h' !! j = view <$> h_nodes h !! j.
Lemma same_view_refl h : same_view h h. Proof. split; [lia|done]. Qed.
Lemma same_view_trans h1 h2 h3 : same_view h1 h2 -> same_view h2 h3 -> same_view h1 h3.
Proof. intros [L1 H1] [L2 H2]. split; [lia|]. intros j Hj. rewrite H2 by lia. by apply H1. Qed.
Lemma same_view_upd h i n m : h_nodes h !! i = Some n -> view m = view n -> same_view h (upd i m h).
Proof.
  intros Hi Hv. split; [done|]. intros j _. destruct (decide (i = j)) as [<-|Hij]; [|by rewrite lookup_upd_ne].
  rewrite lookup_upd, Hi. cbn. by rewrite Hv.
Qed.
Lemma same_view_alloc h n : same_view h (allocd n h).
Proof. split; [cbn; lia|]. intros j Hj. cbn. by rewrite lookup_insert_ne by lia. Qed.
Lemma same_view_some h h' j n : same_view h h' -> Inv h -> h_nodes h !! j = Some n -> exists n', h_nodes h' !! j = Some n' /\ view n' = view n.
Proof.
  intros [_ H] HI Hj. specialize (H j (inv_lt h HI _ _ Hj)). rewrite Hj in H. cbn in H.
  destruct (h_nodes h' !! j) as [n'|]; [|done]. injection H as H1 H2 H3 H4 H5 H6. exists n'. split; [done|]. unfold view. congruence.
Qed.
Lemma same_view_none h h' j : same_view h h' -> (j < h_next h)%nat -> h_nodes h !! j = None -> h_nodes h' !! j = None.
Proof. intros [_ H] Hj Hn. specialize (H j Hj). rewrite Hn in H. by destruct (h_nodes h' !! j). Qed.

Lemma scan_ext E r1 r2 : (forall t, r1 t = r2 t) -> forall s k, scan E r1 s k = scan E r2 s k.
Proof.
  intros H. induction s as [|c s IH]; intros k; [done|]. cbn. destruct k; [|by rewrite IH].
  destruct (find_token E (c :: s)) as [[t n]|]; rewrite IH; [by rewrite H|done].
Qed.
Lemma normalize_ext E r1 r2 cd : (forall s, r1 s = r2 s) -> forall k v, normalize_attribute_value k E r1 cd v = normalize_attribute_value k E r2 cd v.
Proof.
  intros H. induction k as [|k IH]; intros v; [done|]. cbn [normalize_attribute_value].
  rewrite (scan_ext E _ (fun tok => match tok with
      | TEntity m => let? r := r2 m in match r with None => Panic PExplicit | Some x => normalize_attribute_value k E r2 cd x end
      | TChar m | THex m => char_from_entity m | TWs => Ok [C_SPACE] end)); [done|].
  intros [m|m|m|]; [|done..]. rewrite H. destruct (r2 m) as [[x|]| | |]; cbn; try done.
Qed.
Lemma attr_text_view h h' l : same_view h h' -> Inv h -> (forall c, In c l -> exists n, h_nodes h !! c = Some n) -> attr_text h' l = attr_text h l.
Proof.
  intros Hv HI. induction l as [|c l IH]; intros Hl; [done|]. cbn.
  destruct (Hl c) as (n & Hn); [by left|]. destruct (same_view_some h h' c n Hv HI Hn) as (n' & Hn' & Hvn). unfold get_node. rewrite Hn, Hn'. cbn.
  rewrite IH by (intros; apply Hl; by right). injection Hvn as Ht Hval _ _ _ _. unfold is_type. by rewrite Ht, Hval.
Qed.
Lemma resolve_view h h' i n s : same_view h h' -> Inv h -> h_nodes h !! i = Some n -> n_type n = NAttribute -> resolve_entity h' i s = resolve_entity h i s.
Proof.
  intros Hv HI Hn Ht. destruct (same_view_some h h' i n Hv HI Hn) as (n' & Hn' & Hvn). injection Hvn as Ht' _ Ho' _ _ _.
  unfold resolve_entity. rewrite (get_node_some _ _ _ Hn), (get_node_some _ _ _ Hn'). cbn [rbind]. rewrite Ht', Ht, Ho'.
  destruct (owner_some h i n HI Hn ltac:(congruence) ltac:(congruence)) as (d & Ho & Hlt & Hdt). rewrite Ho. unfold upgrade, alive.
  destruct (h_nodes h !! d) as [nd|] eqn:Hd; [|by rewrite (same_view_none h h' d Hv Hlt Hd)].
  destruct (same_view_some h h' d nd Hv HI Hd) as (nd' & Hd' & Hvd). injection Hvd as Htd _ _ _ Hdt' _. rewrite Hd'.
  unfold doc_type. rewrite (get_node_some _ _ _ Hd), (get_node_some _ _ _ Hd'). cbn [rbind]. unfold is_type at 1 3. rewrite Htd.
  destruct (type_eqb (n_type nd) NDocument); [|done]. rewrite Hdt'.
  destruct (match n_ext nd with XDocument _ x _ _ => x | _ => None end) as [t|] eqn:Hx; [|done].
  destruct (inv_node h HI d nd Hd) as (Hex & _). unfold ext_ok in Hex. destruct (n_ext nd) as [| |? dt ? ?| | | |]; try done. subst dt.
  destruct Hex as (_ & Hex & _). destruct (Hex t eq_refl) as (st & Hst & Htt). apply info_inv in Hst as (nt & Hnt & <-).
  destruct (same_view_some h h' t nt Hv HI Hnt) as (nt' & Hnt' & Hvt). injection Hvt as Ht1 _ _ _ _ Hes.
  cbn [rbind]. rewrite (get_node_some _ _ _ Hnt), (get_node_some _ _ _ Hnt'). cbn [rbind]. unfold is_type. rewrite Ht1. cbn in Htt. rewrite Htt. cbn.
  destruct (inv_node h HI t nt Hnt) as (Hex' & _). unfold ext_ok in Hex'.
  destruct (n_ext nt) as [| | |es ns p1 p2 p3| | |] eqn:Hxt; try (destruct Hex'; congruence); try (rewrite Htt in Hex'; done).
  destruct Hex' as (_ & -> & ->).
  destruct (unwrap_res (name_from_str s)); cbn; try done. destruct (n_ext nt'); try done. by subst.
Qed.
Lemma attr_value_view E h h' i n : same_view h h' -> Inv h -> h_nodes h !! i = Some n -> n_type n = NAttribute -> attr_value E h' i = attr_value E h i.
Proof.
  intros Hv HI Hn Ht. destruct (same_view_some h h' i n Hv HI Hn) as (n' & Hn' & Hvn). injection Hvn as _ _ _ Hc' _ _.
  unfold attr_value. rewrite (get_node_some _ _ _ Hn), (get_node_some _ _ _ Hn'). cbn [rbind]. rewrite Hc'. destruct (is_nil (n_children n)); [done|].
  rewrite (attr_text_view h h') by (try done; intros c Hc; destruct (inv_node h HI i n Hn) as (_ & _ & _ & [Hch _] & _);
    destruct (Hch c Hc) as (_ & s & Hs & _); apply info_inv in Hs as (m & Hm & _); eauto).
  destruct (attr_text h (n_children n)); cbn [rbind]; [|done..].
  rewrite (normalize_ext E (resolve_entity h' i) (resolve_entity h i) false); [reflexivity|]. intros s. by eapply resolve_view.
Qed.
(** Values are never reported as errors. *)
Lemma scan_not_err E r : (forall t e, r t <> Err e) -> forall s k e, scan E r s k <> Err e.
Proof.
  intros H. induction s as [|c s IH]; intros k e; [done|]. cbn. destruct k; [|apply IH].
  destruct (find_token E (c :: s)) as [[t n]|].
  - specialize (H t e). destruct (r t); cbn [rbind]; try done. specialize (IH (n - 1)%nat e). by destruct (scan E r s (n - 1)).
  - specialize (IH 0 e). by destruct (scan E r s 0).
Qed.
Lemma char_from_entity_not_err m e : char_from_entity m <> Err e.
Proof.
  unfold char_from_entity. destruct m as [|? [|? [|c t]]]; try done. destruct (negb _); [done|].
  destruct (parse_u32 _ _); [|done]. by destruct (char_try_from n1).
Qed.
Lemma normalize_not_err E r cd : (forall s e, r s <> Err e) -> forall k v e, normalize_attribute_value k E r cd v <> Err e.
Proof.
  intros H. induction k as [|k IH]; intros v e; [done|]. cbn [normalize_attribute_value].
  match goal with |- context [scan E ?f _ _] => assert (G : forall t x, f t <> Err x) end.
  { intros [m|m|m|] x; [|apply char_from_entity_not_err..|done]. specialize (H m x). destruct (r m) as [[y|]| | |]; cbn [rbind]; first [apply IH|congruence]. }
  pose proof (scan_not_err E _ G (normalize_eol v) 0 e) as Hs.
  destruct (scan E _ _ _); cbn [rbind]; try done. by destruct cd.
Qed.
Lemma get_node_not_err h i e : get_node h i <> Err e. Proof. unfold get_node. by destruct (h_nodes h !! i). Qed.
Lemma resolve_not_err h i s e : resolve_entity h i s <> Err e.
Proof.
  unfold resolve_entity, doc_type, node_value, get_node, unwrap_res.
  repeat (match goal with |- context [match ?x with _ => _ end] => destruct x; cbn [rbind]; try done end).
Qed.
Lemma attr_text_not_err h l e : attr_text h l <> Err e.
Proof.
  induction l as [|c l IH]; [done|]. cbn. unfold get_node. destruct (h_nodes h !! c); cbn; [|done]. by destruct (attr_text h l).
Qed.
Lemma attr_value_not_err E h i e : attr_value E h i <> Err e.
Proof.
  unfold attr_value. unfold get_node at 1. destruct (h_nodes h !! i) as [n|]; cbn [rbind]; [|done]. destruct (is_nil _); [done|].
  pose proof (attr_text_not_err h (n_children n) e). destruct (attr_text h (n_children n)) as [raw|e'|p|]; cbn [rbind]; [|congruence..].
  pose proof (normalize_not_err E (resolve_entity h i) false (resolve_not_err h i) entity_fuel raw e) as Hn.
  destruct (normalize_attribute_value entity_fuel E (resolve_entity h i) false raw); cbn [rbind]; congruence.
Qed.

(** ** [set_attribute_node] *)
Definition opts_of (nd : node) : options := match n_ext nd with XDocument _ _ _ o => o | _ => options_new end.
Lemma el_ext h e ne : Inv h -> h_nodes h !! e = Some ne -> n_type ne = NElement -> exists attrs nss, n_ext ne = XElement attrs nss.
Proof.
  intros HI He Ht. destruct (inv_node h HI e ne He) as (Hx & _). unfold ext_ok in Hx. destruct (n_ext ne); try (destruct Hx; congruence); eauto; rewrite Ht in Hx; done.
Qed.
Lemma doc_ext h e ne : Inv h -> h_nodes h !! e = Some ne -> n_type ne = NDocument -> exists decl dt m o, n_ext ne = XDocument decl dt m o.
Proof.
  intros HI He Ht. destruct (inv_node h HI e ne He) as (Hx & _). unfold ext_ok in Hx. destruct (n_ext ne); try (destruct Hx; congruence); eauto; rewrite Ht in Hx; done.
Qed.
Lemma attr_ext h e ne : Inv h -> h_nodes h !! e = Some ne -> n_type ne = NAttribute -> exists o, n_ext ne = XAttribute o.
Proof.
  intros HI He Ht. destruct (inv_node h HI e ne He) as (Hx & _). unfold ext_ok in Hx. destruct (n_ext ne); try (destruct Hx; congruence); eauto; rewrite Ht in Hx; done.
Qed.
(** The state after the attribute has been put in the map. *)
Definition with_attr (h : heap) (e a : id) (ne na : node) (attrs : list (Name * id)) (nss : list (option str * str)) : heap :=
  upd e (set_ext (XElement (hm_insert (n_name na) a attrs) nss) ne) (upd a (set_ext (XAttribute (Some e)) na) h).
Inductive mapped (E : env) (h : heap) (a : id) (na : node) (o : options) (nss : list (option str * str)) : list (option str * str) -> Prop :=
| mp_no : is_namespace_attribute (n_name na) = false \/ has_add_namespaces o = false -> mapped E h a na o nss nss
| mp_yes v : is_namespace_attribute (n_name na) = true -> has_add_namespaces o = true -> attr_value E h a = Ok (Some v) ->
    mapped E h a na o nss (hm_insert (nm_prefix (n_name na)) v nss).
Inductive registered (E : env) (h h1 : heap) (e a d : id) (na nd : node) : heap -> res id -> Prop :=
| rg_no : is_id_attribute (n_name na) (has_assume_ids (opts_of nd)) = false -> registered E h h1 e a d na nd h1 (Ok a)
| rg_new decl dt m o v : is_id_attribute (n_name na) (has_assume_ids (opts_of nd)) = true -> n_ext nd = XDocument decl dt m o ->
    attr_value E h a = Ok (Some v) -> hm_get v m = None ->
    registered E h h1 e a d na nd (upd d (set_ext (XDocument decl dt (hm_insert v e m) o) nd) h1) (Ok a)
| rg_dup decl dt m o v x : is_id_attribute (n_name na) (has_assume_ids (opts_of nd)) = true -> n_ext nd = XDocument decl dt m o ->
    attr_value E h a = Ok (Some v) -> hm_get v m = Some x -> registered E h h1 e a d na nd h1 (Err Syntax).

Lemma csd_no_doc h e a ne na : h_nodes h !! e = Some ne -> h_nodes h !! a = Some na -> n_type ne <> NDocument ->
  returned (check_same_document h e a) -> n_owner ne <> None -> n_owner na <> None ->
  check_same_document h e a = Err WrongDocument /\ n_owner na <> n_owner ne \/ check_same_document h e a = Ok tt /\ n_owner na = n_owner ne.
Proof.
  intros He Ha Ht Hr Ho1 Ho2. unfold check_same_document in *. rewrite (get_node_some _ _ _ He), (get_node_some _ _ _ Ha) in *. cbn [rbind] in *.
  apply is_type_false in Ht. rewrite Ht in *. destruct (n_owner ne) as [d1|] eqn:E1; [|done]. destruct (n_owner na) as [d2|] eqn:E2; [|done].
  cbn [upgrade] in *. destruct (alive h d1); [|done]. destruct (alive h d2); [|done]. cbn [unwrap_opt rbind] in *.
  destruct (decide (d1 = d2)) as [->|Hne]; [rewrite bool_decide_true by done; by right|rewrite bool_decide_false by done; left]. split; [done|]. congruence.
Qed.
Lemma set_attribute_node_inv E h h' e a r : Inv h -> set_attribute_node E e a h = (h', r) -> returned r ->
  exists ne na, h_nodes h !! e = Some ne /\ h_nodes h !! a = Some na /\
  ((h' = h /\ r = Err InvalidState /\ ~ (n_type ne = NElement /\ n_type na = NAttribute)) \/
   (n_type ne = NElement /\ n_type na = NAttribute /\ h' = h /\ r = Err WrongDocument /\ n_owner na <> n_owner ne) \/
   (n_type ne = NElement /\ n_type na = NAttribute /\ n_owner na = n_owner ne /\ exists attrs nss nss' d nd,
     n_ext ne = XElement attrs nss /\ n_owner ne = Some d /\ h_nodes h !! d = Some nd /\ n_type nd = NDocument /\
     mapped E h a na (opts_of nd) nss nss' /\ registered E h (with_attr h e a ne na attrs nss') e a d na nd h' r)).
Proof.
  intros HI H Hr. unfold set_attribute_node in H.
  apply bind_getM in H as (ne & He & H); [|done]. apply bind_getM in H as (na & Ha & H); [|done]. exists ne, na. split; [done|]. split; [done|].
  destruct (is_type NElement ne && is_type NAttribute na) eqn:Ht; cbn [negb] in H.
  2:{ left. injection H as <- <-. split; [done|]. split; [done|]. intros [H1%is_type_true H2%is_type_true]. by rewrite H1, H2 in Ht. }
  apply andb_true_iff in Ht as [Hte%is_type_true Hta%is_type_true]. right.
  destruct (owner_some h e ne HI He ltac:(congruence) ltac:(congruence)) as (d & Hoe & Hdlt & Hdt).
  destruct (owner_some h a na HI Ha ltac:(congruence) ltac:(congruence)) as (d2 & Hoa & _ & _).
  assert (Hcr : returned (check_same_document h e a)).
  { destruct (check_same_document h e a) as [[]|x|x|] eqn:Hc; try done; unfold bind, lift in H; rewrite Hc in H; injection H as <- <-; done. }
  destruct (csd_no_doc h e a ne na He Ha ltac:(congruence) Hcr ltac:(congruence) ltac:(congruence)) as [[Hc Ho]|[Hc Ho]].
  { left. unfold bind at 1, lift in H. rewrite Hc in H. injection H as <- <-. split_and!; done. }
  right. rewrite (bind_read _ tt) in H by done.
  destruct (attr_ext h a na HI Ha Hta) as (oa & Hxa). destruct (el_ext h e ne HI He Hte) as (attrs & nss & Hxe).
  rewrite Hxa, (bind_modifyM _ _ na) in H by done. split; [done|]. split; [done|]. split; [done|].
  assert (Hea : e <> a) by congruence.
  set (h1 := upd a (set_ext (XAttribute (Some e)) na) h) in *.
  assert (Hv1 : same_view h h1) by (eapply same_view_upd; [done|]; unfold view; cbn; by rewrite Hxa).
  assert (He1 : h_nodes h1 !! e = Some ne) by (unfold h1; rewrite lookup_upd_ne by congruence; done).
  exists attrs, nss.
  assert (Hal : alive h d = true).
  { destruct (alive h d) eqn:Hx; [done|]. exfalso. unfold check_same_document in Hc. rewrite (get_node_some _ _ _ He), (get_node_some _ _ _ Ha) in Hc. cbn [rbind] in Hc.
    assert (Hnd : is_type NDocument ne = false) by (apply is_type_false; congruence). rewrite Hnd, Hoe, Hoa in Hc. cbn [upgrade] in Hc. by rewrite Hx in Hc. }
  apply alive_true in Hal as (nd & Hd). specialize (Hdt nd Hd).
  assert (Hde : d <> e) by congruence. assert (Hda : d <> a) by congruence.
  assert (Hd1 : h_nodes h1 !! d = Some nd) by (unfold h1; rewrite lookup_upd_ne by congruence; done).
  assert (Hav : attr_value E h1 a = attr_value E h a) by (by eapply attr_value_view).
  (* the mapping *)
  assert (Hmap : exists nss' h2, mapped E h a na (opts_of nd) nss nss' /\ h2 = upd e (set_ext (XElement attrs nss') ne) h1 /\
    (do? ns := getM e in
     match n_ext ns with
     | XElement attrs nss =>
        do? _ := modifyM e (set_ext (XElement (hm_insert (n_name na) a attrs) nss)) in
        do? d := lift (fun h => let? o := owner_document h a in unwrap_opt o) in
        if bool_decide (d = e) then panic_ PBorrow else
        do? nd := getM d in
        let lax := match n_ext nd with XDocument _ _ _ o => has_assume_ids o | _ => false end in
        if is_id_attribute (n_name na) lax then
        match n_ext nd with
        | XDocument decl dt m o =>
            do? v := lift (fun h => let? v := attr_value E h a in unwrap_opt v) in
            match hm_get v m with
            | Some _ => fail Syntax
            | None => do? _ := modifyM d (set_ext (XDocument decl dt (hm_insert v e m) o)) in ret a
            end
        | _ => ret a
        end
      else ret a
     | _ => fail Syntax
     end) h2 = (h', r)).
  { assert (Hs : upd e (set_ext (XElement attrs nss) ne) h1 = h1).
    { apply upd_id. rewrite He1. f_equal. destruct ne. cbn in *. by subst. }
    destruct (is_namespace_attribute (n_name na)) eqn:Hns.
    2:{ rewrite bind_ret in H. exists nss, h1. split; [apply mp_no; by left|]. by rewrite Hs. }
    assert (Hadd : add_namespaces h1 e = Ok (has_add_namespaces (opts_of nd))).
    { unfold add_namespaces, owner_document. rewrite (get_node_some _ _ _ He1). cbn [rbind]. rewrite Hoe.
      assert (Hup : upgrade h1 (Some d) = Some d) by (apply upgrade_some; eauto). rewrite Hup, (get_node_some _ _ _ Hd1). cbn [rbind].
      unfold opts_of. destruct (doc_ext h d nd HI Hd Hdt) as (? & ? & ? & ? & ->). done. }
    rewrite bind_assoc in H. apply bind_lift in H as [(v & Hv & H)|(x & Hx & _)]; [|exfalso|done].
    2:{ rewrite Hav in Hx. pose proof (attr_value_not_err E h a x). destruct (attr_value E h a) as [[?|]| | |]; cbn in Hx; try done. congruence. }
    rewrite Hav in Hv. destruct (attr_value E h a) as [[v'|]| | |] eqn:Hval; cbn in Hv; try done. injection Hv as ->.
    unfold insert_mapping in H. rewrite !bind_assoc, (bind_read _ _ _ _ Hadd) in H.
    destruct (has_add_namespaces (opts_of nd)) eqn:Hb; cbn [negb] in H.
    2:{ rewrite bind_ret in H. exists nss, h1. split; [apply mp_no; by right|]. by rewrite Hs. }
    rewrite bind_assoc, (bind_node _ ne) in H by done. apply is_type_true in Hte as Hte'. rewrite Hte', Hxe in H. rewrite (bind_modifyM _ _ ne) in H by done.
    eexists _, _. split; [apply (mp_yes _ _ _ _ _ _ v); done|]. split; [reflexivity|exact H]. }
  clear H. destruct Hmap as (nss' & h2 & Hmap & -> & H). exists nss', d, nd. split_and!; try done.
  assert (He2 : forall n, h_nodes (upd e n h1) !! e = Some n) by (intros n; apply lookup_upd).
  rewrite (bind_node _ _ _ _ (He2 _)) in H. cbn [n_ext set_ext] in H.
  rewrite (bind_modifyM _ _ _ _ _ (He2 _)) in H. rewrite upd_upd in H.
  change (set_ext ?x (set_ext ?y ne)) with (set_ext x ne) in H.
  set (h3 := upd e _ h1) in *. change (with_attr h e a ne na attrs nss') with h3.
  assert (Ha3 : h_nodes h3 !! a = Some (set_ext (XAttribute (Some e)) na)) by (unfold h3, h1; rewrite lookup_upd_ne by done; apply lookup_upd).
  assert (Hd3 : h_nodes h3 !! d = Some nd) by (unfold h3; rewrite lookup_upd_ne by congruence; done).
  assert (Hv3 : same_view h h3).
  { eapply same_view_trans; [exact Hv1|]. eapply same_view_upd; [done|]. unfold view; cbn. by rewrite Hxe. }
  assert (Hav3 : attr_value E h3 a = attr_value E h a) by (by eapply attr_value_view).
  rewrite (bind_read _ d) in H.
  2:{ unfold owner_document. rewrite (get_node_some _ _ _ Ha3). cbn [rbind n_owner set_ext]. rewrite Ho, Hoe.
      assert (Hup : upgrade h3 (Some d) = Some d) by (apply upgrade_some; eauto). by rewrite Hup. }
  rewrite !bool_decide_false in H by done. cbn [orb] in H. rewrite (bind_node _ nd) in H by done.
  destruct (doc_ext h d nd HI Hd Hdt) as (decl & dt & m & o & Hxd). rewrite Hxd in H.
  assert (Hop : opts_of nd = o) by (unfold opts_of; by rewrite Hxd).
  destruct (is_id_attribute (n_name na) (has_assume_ids o)) eqn:Hid.
  2:{ injection H as <- <-. apply rg_no. by rewrite Hop. }
  apply bind_lift in H as [(v & Hv & H)|(x & Hx & _)]; [|exfalso|done].
  2:{ rewrite Hav3 in Hx. pose proof (attr_value_not_err E h a x). destruct (attr_value E h a) as [[?|]| | |]; cbn in Hx; try done. congruence. }
  rewrite Hav3 in Hv. destruct (attr_value E h a) as [[v'|]| | |] eqn:Hval; cbn in Hv; try done. injection Hv as ->.
  destruct (hm_get v m) as [x|] eqn:Hg.
  - injection H as <- <-. eapply rg_dup; try done. by rewrite Hop.
  - rewrite (bind_modifyM _ _ nd) in H by done. injection H as <- <-. eapply rg_new; try done. by rewrite Hop.
Qed.

(** ** Map membership *)
Section hm.
  Context {K V : Type} `{EqDecision K}.
  Implicit Type m : list (K * V).
  Lemma hm_get_iff k v m : List.NoDup (map fst m) -> hm_get k m = Some v <-> In (k, v) m.
  Proof.
    intros Hnd. split; [apply hm_get_in|]. intros Hin. induction m as [|[k' v'] m IH]; [done|]. cbn in *. inversion Hnd as [|x y H1 H2]; subst.
    destruct Hin as [[= -> ->]|Hin]; [by rewrite bool_decide_true|]. rewrite bool_decide_false; [by apply IH|]. intros ->. apply H1.
    apply in_map_iff. by exists (k, v).
  Qed.
  Lemma hm_insert_iff k v m k' v' : List.NoDup (map fst m) -> In (k', v') (hm_insert k v m) <-> k' = k /\ v' = v \/ k' <> k /\ In (k', v') m.
  Proof.
    intros Hnd. rewrite <- (hm_get_iff k' v' m Hnd), <- (hm_get_iff k' v' (hm_insert k v m)) by (by apply hm_insert_nodup).
    destruct (decide (k' = k)) as [->|Hk]; [rewrite hm_get_insert|rewrite hm_get_insert_ne by congruence]; intuition congruence.
  Qed.
  Lemma hm_remove_iff k m k' v' : List.NoDup (map fst m) -> In (k', v') (hm_remove k m) <-> k' <> k /\ In (k', v') m.
  Proof.
    induction m as [|[k1 v1] m IH]; intros Hnd; cbn; [tauto|]. cbn in Hnd. inversion Hnd as [|x y H1 H2]; subst.
    destruct (decide (k1 = k)) as [->|Hk].
    - rewrite bool_decide_true by done. split; [|intros [Hne [[= -> ->]|H]]; done]. intros H. split; [|by right]. intros ->. apply H1.
      apply in_map_iff. by exists (k, v').
    - rewrite bool_decide_false by done. cbn. rewrite (IH H2). split; [intros [[= -> ->]|[? ?]]; tauto|tauto].
  Qed.
End hm.
Lemma find_first_some {A} (p : A -> bool) l x : In x l -> p x = true -> (forall y, In y l -> p y = true -> y = x) -> find_first p l = Some x.
Proof.
  induction l as [|y l IH]; intros Hin Hp Hu; [done|]. cbn. destruct (p y) eqn:Hy; [f_equal; apply Hu; [by left|done]|].
  apply IH; [|done|intros z Hz; apply Hu; by right]. destruct Hin as [->|Hin]; [congruence|done].
Qed.
Lemma find_first_none {A} (p : A -> bool) l : (forall y, In y l -> p y = false) -> find_first p l = None.
Proof. induction l as [|y l IH]; intros H; [done|]. cbn. rewrite (H y) by (by left). apply IH. intros z Hz. apply H. by right. Qed.
(** A lookup by a property of the name. *)
Definition lookup_attr (E : env) (p : Name -> bool) (attrs : list (Name * id)) : option id :=
  option_map snd (find_first (fun q => p q.1) (e_ord_attr E attrs)).
Lemma In_perm {A} (l l' : list A) x : l ≡ₚ l' -> In x l <-> In x l'.
Proof. intros H. rewrite <- !elem_of_list_In. by rewrite H. Qed.
Definition at_most_one (p : Name -> bool) (attrs : list (Name * id)) : Prop :=
  forall k1 a1 k2 a2, In (k1, a1) attrs -> In (k2, a2) attrs -> p k1 = true -> p k2 = true -> k1 = k2.
Lemma lookup_attr_some E p attrs k a : wf_env E -> List.NoDup (map fst attrs) -> at_most_one p attrs -> In (k, a) attrs -> p k = true -> lookup_attr E p attrs = Some a.
Proof.
  intros HE Hnd Hu Hin Hp. unfold lookup_attr. rewrite (find_first_some _ _ (k, a)); [done| |done|].
  - by apply (In_perm _ _ _ (wf_ord_attr E HE attrs)).
  - intros [k' a'] Hin' Hp'. apply (In_perm _ _ _ (wf_ord_attr E HE attrs)) in Hin'. cbn in Hp'.
    assert (k' = k) as -> by eauto. apply (hm_get_iff _ _ _ Hnd) in Hin, Hin'. congruence.
Qed.
Lemma lookup_attr_none E p attrs : wf_env E -> (forall k a, In (k, a) attrs -> p k = false) -> lookup_attr E p attrs = None.
Proof.
  intros HE H. unfold lookup_attr. rewrite find_first_none; [done|]. intros [k a] Hin. apply (In_perm _ _ _ (wf_ord_attr E HE attrs)) in Hin. by eapply H.
Qed.
Lemma exists_or_none (p : Name -> bool) (attrs : list (Name * id)) :
  (exists k a, In (k, a) attrs /\ p k = true) \/ (forall k a, In (k, a) attrs -> p k = false).
Proof.
  induction attrs as [|[k a] attrs IH]; [by right|]. destruct (p k) eqn:Hp; [left; exists k, a; split; [by left|done]|].
  destruct IH as [(k' & a' & Hin & Hp')|IH]; [left; exists k', a'; split; [by right|done]|right]. intros k' a' [[= -> ->]|Hin]; eauto.
Qed.
Lemma lookup_attr_insert E p attrs k a : wf_env E -> List.NoDup (map fst attrs) -> at_most_one p attrs -> p k = false ->
  lookup_attr E p (hm_insert k a attrs) = lookup_attr E p attrs.
Proof.
  intros HE Hnd Hu Hp.
  assert (Hu' : at_most_one p (hm_insert k a attrs)).
  { intros k1 a1 k2 a2 H1 H2 Hp1 Hp2. apply hm_insert_iff in H1, H2; try done. destruct H1 as [[-> _]|[_ H1]]; [congruence|].
    destruct H2 as [[-> _]|[_ H2]]; [congruence|]. eauto. }
  destruct (exists_or_none p attrs) as [(k' & a' & Hin & Hp')|Hno].
  - rewrite (lookup_attr_some E p attrs k' a') by done. eapply lookup_attr_some; [done|by apply hm_insert_nodup|done| |exact Hp'].
    apply hm_insert_iff; [done|]. right. split; [congruence|done].
  - rewrite (lookup_attr_none E p attrs) by done. apply lookup_attr_none; [done|]. intros k' a' H. apply hm_insert_iff in H; [|done].
    destruct H as [[-> _]|[_ H]]; [done|eauto].
Qed.

(** ** Setting a new attribute *)
Lemma registered_frame E h h1 e a d na nd h' r : registered E h h1 e a d na nd h' r -> h_nodes h1 !! d = Some nd ->
  h_next h' = h_next h1 /\ (forall j, j <> d -> h_nodes h' !! j = h_nodes h1 !! j) /\ same_view h1 h' /\
  exists nd', h_nodes h' !! d = Some nd' /\ static nd' = static nd /\ n_value nd' = n_value nd /\ n_parent nd' = n_parent nd /\ n_children nd' = n_children nd.
Proof.
  intros Hr Hd. destruct Hr as [|decl dt m o v Hid Hx Hv Hg|].
  - split; [done|]. split; [done|]. split; [apply same_view_refl|]. exists nd. done.
  - split; [done|]. split; [intros j Hj; by rewrite lookup_upd_ne|]. split; [eapply same_view_upd; [done|]; unfold view; cbn; by rewrite Hx|].
    eexists. split; [apply lookup_upd|]. done.
  - split; [done|]. split; [done|]. split; [apply same_view_refl|]. exists nd. done.
Qed.
Lemma with_attr_view h e a ne na attrs nss nss' : h_nodes h !! e = Some ne -> h_nodes h !! a = Some na -> e <> a -> n_ext ne = XElement attrs nss ->
  (exists o, n_ext na = XAttribute o) -> same_view h (with_attr h e a ne na attrs nss').
Proof.
  intros He Ha Hne Hx [o Hxa]. unfold with_attr. apply (same_view_trans _ (upd a (set_ext (XAttribute (Some e)) na) h)).
  - apply (same_view_upd h a na); [done|]. unfold view. cbn. by rewrite Hxa.
  - apply (same_view_upd _ e ne); [by rewrite lookup_upd_ne by congruence|]. unfold view. cbn. by rewrite Hx.
Qed.
Record was_set (E : env) (h h' : heap) (e : id) (nm : Name) (v : str) (r : res unit) (a : id) (ne : node) (attrs : list (Name * id)) (nss nss' : list (option str * str)) : Prop := {
  ws_e : h_nodes h !! e = Some ne;
  ws_ext : n_ext ne = XElement attrs nss;
  ws_nodup : List.NoDup (map fst attrs);
  ws_new : h_nodes h !! a = None;
  ws_e' : h_nodes h' !! e = Some (set_ext (XElement (hm_insert nm a attrs) nss') ne);
  ws_a' : exists t d, h_nodes h' !! a = Some (mkNode NAttribute nm None None (Some d) [t] (XAttribute (Some e))) /\
     h_nodes h !! t = None /\ h_nodes h' !! t = Some (new_text d v);
  ws_view : same_view h h';
  ws_res : r = Ok tt \/ r = Err Syntax;
  ws_frame : forall j n, h_nodes h !! j = Some n -> j <> e -> n_type n <> NDocument -> h_nodes h' !! j = Some n }.
Lemma set_new_attribute_inv E h h' e ne nm v r : Inv h -> h_nodes h !! e = Some ne -> n_type ne = NElement -> parsed_name nm ->
  set_new_attribute E e nm v h = (h', r) -> returned r -> exists a attrs nss nss', was_set E h h' e nm v r a ne attrs nss nss'.
Proof.
  intros HI He Hte Hnm H Hr. unfold set_new_attribute in H. rewrite (bind_node _ ne) in H by done.
  destruct (owner_some h e ne HI He ltac:(congruence) ltac:(congruence)) as (d & Hoe & Hdlt & Hdt).
  rewrite (bind_read _ d) in H by (by rewrite Hoe).
  set (t := h_next h). set (a := S t). set (na := mkNode NAttribute nm None None (Some d) [t] (XAttribute None)).
  set (h2 := allocd na (allocd (new_text d v) h)).
  assert (Hw : wdoc h d). { split; [done|]. intros s Hs. apply info_inv in Hs as (nd & Hnd & <-). by eapply Hdt. }
  assert (HI2 : Inv h2).
  { assert (Ht : triple Lb h (bind (new_attribute d nm (Some v)) allocM) (attr_created h d nm (Some v))) by (by apply t_attr).
    destruct (Ht HI h2 (Ok a) eq_refl Logic.I) as [Hs _]. by eapply isteps_inv. }
  assert (Heq : bind (new_attribute d nm (Some v)) (fun a0 => do? a1 := allocM a0 in do? _ := set_attribute_node E e a1 in ret tt) h
    = bind (set_attribute_node E e a) (fun _ => ret tt) h2) by reflexivity.
  rewrite Heq in H. clear Heq.
  assert (Hold : forall j n, h_nodes h !! j = Some n -> h_nodes h2 !! j = Some n).
  { intros j n Hj. pose proof (inv_lt h HI j n Hj). cbn. by rewrite !lookup_insert_ne by (subst t; lia). }
  assert (He2 : h_nodes h2 !! e = Some ne) by (by apply Hold).
  assert (Ha2 : h_nodes h2 !! a = Some na) by (cbn; by rewrite lookup_insert).
  assert (Ht2 : h_nodes h2 !! t = Some (new_text d v)) by (cbn; rewrite lookup_insert_ne by (subst t; lia); by rewrite lookup_insert).
  assert (Hnone : forall j, (h_next h <= j)%nat -> h_nodes h !! j = None).
  { intros j Hj. destruct (h_nodes h !! j) eqn:Hx; [|done]. pose proof (inv_lt h HI _ _ Hx). lia. }
  assert (Hr' : exists r0, set_attribute_node E e a h2 = (h', r0) /\ returned r0 /\ r = match r0 with Ok _ => Ok tt | Err x => Err x | Panic x => Panic x | Diverge => Diverge end).
  { unfold bind in H. destruct (set_attribute_node E e a h2) as [h3 [x|x|x|]]; injection H as <- <-; eexists; (split; [reflexivity|]); done. }
  destruct Hr' as (r0 & H0 & Hr0 & Hrr). clear H.
  destruct (set_attribute_node_inv E h2 h' e a r0 HI2 H0 Hr0) as (ne' & na' & He' & Ha' & Hcase).
  rewrite He2 in He'. injection He' as <-. rewrite Ha2 in Ha'. injection Ha' as <-.
  destruct Hcase as [(_ & _ & Hc)|[(_ & _ & _ & _ & Hc)|(_ & _ & _ & attrs & nss & nss' & d' & nd & Hx & Ho & Hd & Htd & Hm & Hreg)]];
    [exfalso; apply Hc; done|exfalso; apply Hc; cbn; congruence|].
  assert (d' = d) by congruence. subst d'.
  assert (Hlt : (e < h_next h)%nat) by (by eapply inv_lt).
  assert (Hea : e <> a) by (subst a t; lia). assert (Hde : d <> e) by congruence. assert (Hda : d <> a) by (subst a t; lia). assert (Hdt' : d <> t) by (subst t; lia).
  assert (Hd1 : h_nodes (with_attr h2 e a ne na attrs nss') !! d = Some nd) by (unfold with_attr; by rewrite !lookup_upd_ne by congruence).
  destruct (registered_frame _ _ _ _ _ _ _ _ _ _ Hreg Hd1) as (Hnx & Hfr & Hvw & nd' & Hd' & Hst & _).
  exists a, attrs, nss, nss'. split; try done.
  - destruct (inv_node h HI e ne He) as (Hex & _). unfold ext_ok in Hex. rewrite Hx in Hex. by destruct Hex as (_ & ? & _).
  - apply Hnone. subst a t; lia.
  - rewrite Hfr by congruence. unfold with_attr. by rewrite lookup_upd.
  - exists t, d. split; [rewrite Hfr by congruence; unfold with_attr; rewrite lookup_upd_ne by congruence; by rewrite lookup_upd|].
    split; [apply Hnone; subst t; lia|]. rewrite Hfr by congruence. unfold with_attr. rewrite !lookup_upd_ne by (subst a t; lia). done.
  - eapply same_view_trans; [|exact Hvw]. eapply same_view_trans; [|eapply with_attr_view; eauto].
    eapply same_view_trans; apply same_view_alloc.
  - destruct Hreg; subst r; tauto.
  - intros j n Hj Hje Htj. pose proof (inv_lt h HI j n Hj). apply Hold in Hj. rewrite Hfr by congruence. unfold with_attr.
    rewrite !lookup_upd_ne by (subst a t; lia). done.
Qed.
