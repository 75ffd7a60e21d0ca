(** * C68: the panics of reading a document *)
From Coq Require Import Lia.
From Verif Require Import SpecPanic ProofText ProofData ProofAttr ProofName ProofInv ProofSteps ProofOps ProofTree ProofInsert ProofElem ProofErr ProofWalk ProofParse
  PropText PropName PropData PropTree PropInsert PropElem PropSplit PropNorm PropDrop PropAccess PropFactory ProofPanic.

#[local] Opaque normalize_attribute_value.

(** A panic of [m] in [h] has the cause [B]. *)
Definition pp {A} (h : heap) (m : PM A) (B : Prop) : Prop := forall h' p, m h = (h', PPanic p) -> B.
Lemma pp_bind {A C} h (m : PM A) (k : A -> PM C) B : pp h m B -> (forall h1 a, m h = (h1, POk a) -> pp h1 (k a) B) -> pp h (pbind m k) B.
Proof. intros Hm Hk h' q H. unfold pbind in H. destruct (m h) as [h1 [a|e|p|]] eqn:Em; try done; [by eapply Hk|by eapply Hm]. Qed.
Lemma pp_ret {A} h (a : A) B : pp h (pret a) B. Proof. by intros h' p Hp. Qed.
Lemma pp_decode h o B : pp h (pdecode o) B. Proof. by destruct o; intros h' p Hp. Qed.
Lemma pp_punwrap {A} h (o : option A) (B : Prop) : (o = None -> B) -> pp h (punwrap o) B. Proof. intros HB. unfold punwrap. destruct o; intros h' p Hp; [done|by apply HB]. Qed.
Lemma pp_dom {A} h (m : M A) (B : Prop) : (panics m h -> B) -> pp h (pdom m) B.
Proof. intros HB h' p H. apply HB. unfold pdom in H. destruct (m h) as [h1 [a|e|q|]] eqn:Em; try done. exists q. by rewrite Em. Qed.
Lemma pp_unwrap {A} h (m : M A) (B : Prop) : (panics m h -> B) -> (forall h1 e, m h = (h1, Err e) -> B) -> pp h (pdom_unwrap m) B.
Proof. intros HB HE. apply pp_dom. intros [q Hq]. unfold err_to_panic in Hq. destruct (m h) as [h1 [a|e|p|]] eqn:Em; try done; [by eapply HE|]. apply HB. exists p. by rewrite Em. Qed.
Lemma pdom_ok {A} h (m : M A) h1 a : pdom m h = (h1, POk a) -> m h = (h1, Ok a).
Proof. unfold pdom. destruct (m h) as [? [?|?|?|]]; intros H; try done. by injection H as -> ->. Qed.
Lemma punwrap_ok {A} h (m : M A) h1 a : pdom_unwrap m h = (h1, POk a) -> m h = (h1, Ok a).
Proof. intros H%pdom_ok. unfold err_to_panic in H. destruct (m h) as [? [?|?|?|]]; try done. Qed.
Lemma pdecode_ok h o h1 s : pdecode o h = (h1, POk s) -> h1 = h /\ o = Some s.
Proof. destruct o; intros H; [|done]. by injection H as -> ->. Qed.

(** ** What reading keeps *)
Definition plain_doc (h : heap) (d : id) : Prop :=
  exists n decl dt m o, h_nodes h !! d = Some n /\ n_type n = NDocument /\ n_ext n = XDocument decl dt m o /\ has_assume_ids o = false.
Definition inside (h : heap) (d x : id) : Prop := exists s, info h x = Some s /\ (x = d \/ s_type s <> NDocument /\ s_owner s = Some d).
Lemma plain_is_doc h d : plain_doc h d -> is_doc h d.
Proof. intros (n & ? & ? & ? & ? & Hn & Ht & _). exists (static n). split; [by apply info_some|done]. Qed.
Lemma upd_plain h i n n' d : h_nodes h !! i = Some n -> n_type n' = n_type n -> n_ext n' = n_ext n -> plain_doc h d -> plain_doc (upd i n' h) d.
Proof.
  intros Hi Ht Hx (nd & decl & dt & m & o & Hd & Htd & Hxd & Ho). destruct (decide (i = d)) as [->|Hne].
  - assert (nd = n) by congruence. subst nd. exists n', decl, dt, m, o. rewrite lookup_upd. split_and!; congruence.
  - exists nd, decl, dt, m, o. by rewrite lookup_upd_ne by congruence.
Qed.
Lemma prim_plain l h h' d : Inv h -> Lb l -> prim l h h' -> plain_doc h d -> plain_doc h' d.
Proof.
  intros HI Hl Hp Hd. destruct Hp as [h n H1 H2|h i n v H1|h p c np nc k H1 H2 H3 H4 H5 H6 H7 H8 H9|h p c np nc k H1 H2 H3|h p c np nc k H1 H2 H3 H4|h i n H1 H2|h i n x H1 H2 H3|h i n H1|h l H1]; try done.
  - destruct Hd as (nd & decl & dt & m & o & Hd & Hr). exists nd, decl, dt, m, o. split; [|done]. cbn. rewrite lookup_insert_ne; [done|]. pose proof (inv_lt h HI d nd Hd). lia.
  - apply (upd_plain _ p np); [by rewrite lookup_upd_ne|done|done|]. by apply (upd_plain _ c nc).
  - destruct (decide (p = c)) as [->|Hne].
    + assert (nc = np) by congruence. subst nc. eapply (upd_plain _ c); [apply lookup_upd|done|done|]. by apply (upd_plain _ c np).
    + eapply (upd_plain _ c nc); [by rewrite lookup_upd_ne|done|done|]. by apply (upd_plain _ p np).
  - destruct Hd as (nd & decl & dt & m & o & Hd & Htd & Hxd & Ho). destruct (decide (i = d)) as [->|Hne].
    + assert (nd = n) by congruence. subst nd. rewrite Hxd in H2. inversion H2; subst; eexists _, _, _, _, _; (split; [apply lookup_upd|]); (split; [exact Htd|]); split; done.
    + exists nd, decl, dt, m, o. by rewrite lookup_upd_ne by congruence.
Qed.
Lemma isteps_plain h h' d : isteps Lb h h' -> Inv h -> plain_doc h d -> plain_doc h' d.
Proof.
  intros H. induction H as [|h1 h2 h3 (l & Hl & Hp) _ IH]; [done|]. intros HI Hd. apply IH; [by eapply prim_inv|]. by eapply prim_plain.
Qed.
Lemma isteps_inside h h' d x : isteps Lb h h' -> Inv h -> inside h d x -> inside h' d x.
Proof. intros Hs HI (s & H1 & H2). exists s. split; [|done]. eapply isteps_info; [apply Lb_nodrop|exact HI|exact Hs|exact H1]. Qed.
(** A node made for the document can be appended inside it without a panic. *)
Lemma append_safe h h1 d p x n : Inv h -> Inv h1 -> plain_doc h d -> inside h d p -> created h n x h1 -> n_owner n = Some d -> n_type n <> NDocument -> ~ panics (append_child p x) h1.
Proof.
  intros HI HI1 Hd Hp [-> ->] Ho Ht HP. destruct Hp as (s & (np & Hnp & <-)%info_inv & Hpd). pose proof (inv_lt h HI p np Hnp) as Hlt.
  assert (Hnp1 : h_nodes (allocd n h) !! p = Some np) by (cbn; rewrite lookup_insert_ne by lia; done).
  assert (Hx1 : h_nodes (allocd n h) !! h_next h = Some n) by (cbn; by rewrite lookup_insert).
  apply (insert_panics_iff _ _ _ None np n HI1 Hnp1 Hx1) in HP.
  assert (Hal : alive (allocd n h) d = true).
  { destruct Hd as (nd & ? & ? & ? & ? & Hd & _). pose proof (inv_lt h HI d nd Hd). apply alive_true. exists nd. cbn. rewrite lookup_insert_ne by lia. done. }
  destruct Hd as (nd & ? & ? & ? & ? & Hd & Htd & _).
  destruct HP as [_ _ _ [(d' & Hd' & Hdead)|(d' & Hd' & Hdead)]|_ _ -> _]; [| |lia].
  - rewrite (document_of_eq _ _ _ Hnp1) in Hd'. destruct Hpd as [->|[Hn Hown]].
    + assert (np = nd) by congruence. subst np. rewrite (proj2 (is_type_true NDocument nd) Htd) in Hd'. congruence.
    + cbn in Hn, Hown. rewrite (proj2 (is_type_false NDocument np) Hn) in Hd'. congruence.
  - rewrite (document_of_eq _ _ _ Hx1), (proj2 (is_type_false NDocument n) Ht) in Hd'. congruence.
Qed.

Section read.
  Context (E : env) (HE : wf_env E) (doc : id).
  Lemma pp_attributes el : forall l h, Inv h -> plain_doc h doc -> (exists s, info h el = Some s /\ s_type s = NElement /\ s_owner s = Some doc) ->
    pp h (handle_attributes E doc el l) (exists a, In a l /\ bad_attr E a).
  Proof.
    induction l as [|[name value| |] l IH]; intros h HI Hd Hel; cbn [handle_attributes]; [apply pp_ret| |intros h' p _; exists PAttrMalformed; split; [by left|constructor]|by intros h' p Hp].
    assert (Hdd := Hd). destruct Hdd as (nd & decl & dt & m & o & Hnd & Htd & Hxd & Hoo).
    apply pp_bind.
    { apply pp_dom. unfold create_attribute_with. rewrite (handle_then _ _ _ _ Hnd), name_then by (intros; apply attr_no_panic). intros Hw. exists (PAttr name value). split; [by left|by constructor]. }
    intros h1 a Ha%pdom_ok.
    assert (T : triple Lb h (create_attribute_with doc name value) (fun a h1 => exists k, name_from_str name = Ok k /\ a = S (h_next h) /\ h1 = allocd (mkNode NAttribute k None None (Some doc) [h_next h] (XAttribute None)) (allocd (new_text doc value) h))).
    { intros HI0 h2 r H2 Hr. assert (T0 : triple Lb h (create_attribute_with doc name value) (fun _ _ => True)) by (eapply triple_weaken; [apply t_create_attribute_with; by apply plain_is_doc|done]). destruct (T0 HI0 h2 r H2 Hr) as [Hs _]. split; [done|]. intros b ->.
      unfold create_attribute_with, with_handle in H2. rewrite (bind_node _ _ _ _ Hnd) in H2. unfold bind at 1, lift in H2. destruct (name_from_str name) as [k| | |]; try done. injection H2 as <- <-. eauto. }
    destruct (T HI h1 (Ok a) Ha Logic.I) as [Hs Hi]. destruct (Hi a eq_refl) as (k & Hk & Ha1 & Hh1). clear Hi T. assert (HI1 : Inv h1) by (eapply isteps_inv; by eauto).
    assert (Hd1 : plain_doc h1 doc) by (eapply isteps_plain; by eauto).
    assert (Hel1 : exists s, info h1 el = Some s /\ s_type s = NElement /\ s_owner s = Some doc).
    { destruct Hel as (s & H1 & H2 & H3). exists s. split; [|done]. eapply isteps_info; [apply Lb_nodrop|exact HI|exact Hs|exact H1]. }
    set (na := mkNode NAttribute k None None (Some doc) [h_next h] (XAttribute None)) in *.
    assert (Hna : h_nodes h1 !! a = Some na) by (subst h1 a; cbn; by rewrite lookup_insert).
    assert (Htx : h_nodes h1 !! h_next h = Some (new_text doc value)) by (subst h1 a; cbn; rewrite lookup_insert_ne by lia; by rewrite lookup_insert).
    apply pp_bind.
    { apply pp_dom. destruct Hel1 as (s & (ne & Hne & <-)%info_inv & Hte & Hoe). cbn in Hte, Hoe. rewrite (set_node_panics E h1 el a ne na HE HI1 Hne Hte Hna). intros (_ & HC)%cf_set_node_inv.
      destruct Hd1 as (nd1 & decl1 & dt1 & m1 & o1 & Hnd1 & Htd1 & Hxd1 & Ho1). assert (Hal : alive h1 doc = true) by (apply alive_true; eauto).
      destruct HC as [(d' & Hd' & Hx)|[(d' & Hd' & Hx)|(k' & _ & Hk' & Hsp & Hv)]].
      - rewrite (document_of_eq _ _ _ Hne), (proj2 (is_type_false NDocument ne) ltac:(congruence)) in Hd'. congruence.
      - rewrite (document_of_eq _ _ _ Hna), (proj2 (is_type_false NDocument na) ltac:(by intros ?)) in Hd'. cbn in Hd'. congruence.
      - unfold node_name in Hk'. rewrite (get_node_some _ _ _ Hna) in Hk'. injection Hk' as <-. destruct (name_from_str_print name k Hk) as [Hpr Hns].
        assert (Hst : stored_text h1 a value).
        { exists na, [value]. split; [done|]. split; [done|]. split; [|cbn; by rewrite app_nil_r]. constructor; [|constructor]. exists (new_text doc value). split; [done|]. left. split; [by left|done]. }
        destruct Hv as [(n & Hn & Hn')%child_nodes_ok|(raw & p & r & Hr & Heq & Hb)]; [rewrite Hna in Hn; by injection Hn as <-|].
        rewrite (stored_fun h1 a raw value Hr Hst) in Heq.
        destruct Hsp as [[Hs1 _]|(d' & Hd' & Hl & [Hc|[Hc|(nd' & dc & dt' & m' & o' & Hnd' & Hxd' & Hoo')]])]; [cbn in Hs1; congruence|cbn in Hc; congruence| |].
        + cbn in Hl, Hc. assert (Hnm : name = lit "xml:id").
          { rewrite <- Hpr. unfold name_to_string. destruct k as [kn kp kl]. cbn in *. subst. by vm_compute. }
          exists (PAttr name value). split; [by left|]. rewrite Hnm. apply ba_id. by exists p, r.
        + unfold owner_link in Hd'. rewrite Hne, Hoe in Hd'. injection Hd' as <-. assert (nd' = nd1) by congruence. subst nd'. congruence. }
    intros h2 b Hb%pdom_ok. destruct (t_set_attribute_node E h1 el a HI1 h2 (Ok b) Hb Logic.I) as [Hs2 _].
    assert (Hs12 : isteps Lb h h2) by (by eapply isteps_app).
    intros h' p H. assert (HB : exists a, In a l /\ bad_attr E a); [|destruct HB as (a' & ? & ?); exists a'; split; [by right|done]]. revert h' p H. apply IH.
    - eapply isteps_inv; by eauto.
    - eapply isteps_plain; by eauto.
    - destruct Hel as (s & H1 & H2 & H3). exists s. split; [|done]. eapply isteps_info; [apply Lb_nodrop|exact HI|exact Hs12|exact H1].
  Qed.
  Lemma pp_start h par name attrs : Inv h -> plain_doc h doc -> inside h doc par ->
    pp h (handle_start E doc par name attrs) (bad_event E (EStart name attrs) /\ bad_event E (EEmpty name attrs)) /\
    forall h2 el, handle_start E doc par name attrs h = (h2, POk el) -> inside h2 doc el.
  Proof.
    intros HI Hd Hp. pose proof (plain_is_doc _ _ Hd) as Hdoc.
    assert (HC : forall s h1 el, create_element doc s h = (h1, Ok el) -> exists nm, created h (new_element doc nm) el h1 /\ isteps Lb h h1 /\ Inv h1).
    { intros s h1 el H1. destruct (t_create_element doc h s Hdoc HI h1 (Ok el) H1 Logic.I) as [Hs Hc]. destruct (Hc el eq_refl) as (nm & Hcr). exists nm. split_and!; [done|done|by eapply isteps_inv]. }
    assert (HA : forall s h1 el h2 a, create_element doc s h = (h1, Ok el) -> append_child par el h1 = (h2, Ok a) -> a = el /\ isteps Lb h h2 /\ exists st, info h2 el = Some st /\ s_type st = NElement /\ s_owner st = Some doc).
    { intros s h1 el h2 a H1 Ha. destruct (HC _ _ _ H1) as (nm & Hcr & Hs & HI1). assert (Hlf : forall nc, h_nodes h1 !! el = Some nc -> n_children nc = []) by (by eapply created_leaf).
      destruct (t_insert_leaf h1 par el None Hlf HI1 h2 (Ok a) Ha Logic.I) as [Hs2 Hq]. specialize (Hq a eq_refl). cbn in Hq. subst a. split; [done|]. split; [by eapply isteps_app|].
      apply created_info in Hcr. eexists. split; [eapply isteps_info; [apply Lb_nodrop|exact HI1|exact Hs2|exact Hcr]|done]. }
    assert (Hdd := Hd). destruct Hdd as (nd & decl & dt & m & o & Hnd & Htd & Hxd & Hoo).
    split.
    - unfold handle_start. apply pp_bind; [apply pp_decode|]. intros h0 s [-> ->]%pdecode_ok.
      apply pp_bind.
      { assert (HN : no_name s -> bad_event E (EStart (Some s) attrs) /\ bad_event E (EEmpty (Some s) attrs)) by (split; by constructor).
        apply pp_unwrap; unfold create_element.
        - rewrite (handle_then _ _ _ _ Hnd), name_then by (intros; apply alloc_no_panic). intros (q & Hq)%C10_panics_iff. apply HN. intros k Hk. congruence.
        - intros h1 e H1. apply HN. intros k Hk. unfold with_handle in H1. rewrite (bind_node _ _ _ _ Hnd), (bind_read _ k) in H1 by done. done. }
      intros h1 el H1%punwrap_ok. destruct (HC _ _ _ H1) as (nm & Hcr & Hs & HI1). apply pp_bind.
      { apply pp_dom. intros HP. destruct (append_safe h h1 doc par el (new_element doc nm) HI HI1 Hd Hp Hcr eq_refl ltac:(by intros ?) HP). }
      intros h2 a Ha%pdom_ok. destruct (HA _ _ _ _ _ H1 Ha) as (-> & Hs2 & Hel). apply pp_bind; [|intros; apply pp_ret].
      intros h' p H. apply (pp_attributes el) in H as (x & Hx & Hb); [|eapply isteps_inv; by eauto|eapply isteps_plain; by eauto|done]. split; by econstructor.
    - intros h2 el H. unfold handle_start, pbind at 1 in H. destruct name as [s|]; [|done]. cbn [pdecode pret] in H.
      unfold pbind at 1 in H. destruct (pdom_unwrap (create_element doc s) h) as [h1 [e1|?|?|]] eqn:H1; try done. apply punwrap_ok in H1.
      unfold pbind at 1 in H. destruct (pdom (append_child par e1) h1) as [h3 [a|?|?|]] eqn:Ha; try done. apply pdom_ok in Ha. destruct (HA _ _ _ _ _ H1 Ha) as (-> & Hs2 & st & Hst & Ht & Hown).
      unfold pbind in H. destruct (handle_attributes E doc e1 attrs h3) as [h4 [[]|?|?|]] eqn:Hat; try done. injection H as <- <-. assert (HI3 : Inv h3) by (eapply isteps_inv; by eauto).
      destruct (p_attributes E doc e1 attrs h3 ltac:(eapply isteps_doc; [apply Lb_nodrop|exact HI|exact Hs2|exact Hdoc]) HI3 _ _ Hat Logic.I) as [Hs3 _].
      exists st. split; [eapply isteps_info; [apply Lb_nodrop|exact HI3|exact Hs3|exact Hst]|]. right. split; [congruence|done].
  Qed.
  Lemma pp_leaf h par (m : PM id) n (B : Prop) : Inv h -> plain_doc h doc -> inside h doc par -> pp h m B -> ptriple Lb h m (created h n) -> n_owner n = Some doc -> n_type n <> NDocument ->
    pp h (dop? x := m in pdom (append_child par x)) B.
  Proof.
    intros HI Hd Hp Hm Ht Ho Hty. apply pp_bind; [done|]. intros h1 x Hx. destruct (Ht HI h1 (POk x) Hx Logic.I) as [Hs Hc]. specialize (Hc x eq_refl).
    apply pp_dom. intros HP. destruct (append_safe h h1 doc par x n HI ltac:(eapply isteps_inv; by eauto) Hd Hp Hc Ho Hty HP).
  Qed.
  Lemma pp_comment h par t B : Inv h -> plain_doc h doc -> inside h doc par -> pp h (handle_comment doc par t) B.
  Proof.
    intros HI Hd Hp. unfold handle_comment. apply pp_bind; [apply pp_decode|]. intros h0 s [-> _]%pdecode_ok. assert (Hdd := Hd). destruct Hdd as (nd & decl & dt & m & o & Hnd & _).
    eapply pp_leaf; [done|done|done| |apply ptriple_dom, triple_handle, t_comment; by apply doc_wdoc, plain_is_doc|done|done]. apply pp_dom. unfold create_comment. rewrite (handle_then _ _ _ _ Hnd). intros HP. by apply alloc_no_panic in HP.
  Qed.
  Lemma pp_text h par t B : Inv h -> plain_doc h doc -> inside h doc par -> pp h (handle_text doc par t) B.
  Proof.
    intros HI Hd Hp. unfold handle_text. apply pp_bind; [apply pp_decode|]. intros h0 s [-> _]%pdecode_ok. assert (Hdd := Hd). destruct Hdd as (nd & decl & dt & m & o & Hnd & _).
    eapply pp_leaf; [done|done|done| |apply ptriple_dom, triple_handle, t_text; by apply doc_wdoc, plain_is_doc|done|done]. apply pp_dom. unfold create_text_node. rewrite (handle_then _ _ _ _ Hnd). intros HP. by apply alloc_no_panic in HP.
  Qed.
  Lemma pp_cdata h par t B : Inv h -> plain_doc h doc -> inside h doc par -> pp h (handle_cdata doc par t) B.
  Proof.
    intros HI Hd Hp. unfold handle_cdata. apply pp_bind; [apply pp_decode|]. intros h0 s [-> _]%pdecode_ok. assert (Hdd := Hd). destruct Hdd as (nd & decl & dt & m & o & Hnd & _).
    eapply pp_leaf; [done|done|done| |apply ptriple_unwrap, triple_handle, t_cdata; by apply doc_wdoc, plain_is_doc|done|done]. apply pp_unwrap; unfold create_cdata_section.
    - rewrite (handle_then _ _ _ _ Hnd). intros HP. by apply alloc_no_panic in HP.
    - intros h1 e H1. unfold with_handle in H1. by rewrite (bind_node _ _ _ _ Hnd) in H1.
  Qed.
  Lemma pp_pi h par t : Inv h -> plain_doc h doc -> inside h doc par -> pp h (handle_pi doc par t) (bad_event E (EPI t)).
  Proof.
    intros HI Hd Hp. unfold handle_pi. apply pp_bind; [apply pp_decode|]. intros h0 s [-> ->]%pdecode_ok. assert (Hdd := Hd). destruct Hdd as (nd & decl & dt & m & o & Hnd & _).
    destruct (pi_parts s) as [target d] eqn:Hpp. apply pi_parts_text in Hpp.
    apply pp_bind.
    - apply pp_unwrap; unfold create_processing_instruction.
      + rewrite (handle_then _ _ _ _ Hnd). destruct (str_eqb _ _) eqn:Hx; [by intros [q Hq]|]. rewrite name_then by (intros; apply alloc_no_panic). intros (q & Hq)%C10_panics_iff. eapply be_pi; [exact Hpp|]. right. intros k Hk. congruence.
      + intros h1 e H1. unfold with_handle in H1. rewrite (bind_node _ _ _ _ Hnd) in H1. eapply be_pi; [exact Hpp|]. destruct (str_eqb _ _) eqn:Hx; [left; by apply xml_target_iff|]. right. intros k Hk. rewrite (bind_read _ k) in H1 by done. done.
    - intros h1 x Hx%punwrap_ok. destruct (t_create_pi doc h target d (plain_is_doc _ _ Hd) HI h1 (Ok x) Hx Logic.I) as [Hs Hc]. destruct (Hc x eq_refl) as (nm & Hcr).
      apply pp_dom. intros HP. destruct (append_safe h h1 doc par x _ HI ltac:(eapply isteps_inv; by eauto) Hd Hp Hcr eq_refl ltac:(by intros ?) HP).
  Qed.
  Lemma pp_decl h v e s : plain_doc h doc -> pp h (handle_decl doc v e s) (bad_event E (EDecl v e s)).
  Proof.
    intros (nd & decl & dt & m & o & Hnd & Htd & Hxd & Hoo). unfold handle_decl. apply pp_bind.
    { apply pp_dom. intros [q Hq]. unfold lift, xml_declaration in Hq. rewrite (get_node_some _ _ _ Hnd) in Hq. cbn in Hq. by rewrite Hxd in Hq. }
    intros h1 old Hold%pdom_ok. injection Hold as <- Hold. destruct old; [by intros h' p Hp|].
    apply pp_bind.
    - unfold make_decl. apply pp_bind; [apply pp_punwrap; intros ->; constructor|]. intros h2 v1 Hv1. destruct v as [v0|]; [|done]. injection Hv1 as <- <-.
      apply pp_bind.
      { intros h' p H. destruct (C15_exhaustive v0) as [Hx|(q & Hq & [->|[[t ->]|(t & -> & Ht & Ht')]])].
        - by rewrite C15_unquoted in H.
        - by apply be_quote.
        - by rewrite C15_quoted in H.
        - by rewrite C15_unbalanced in H. }
      intros h2 v2 _. apply pp_bind.
      { destruct e as [e|]; [|apply pp_ret]. apply pp_bind; [apply pp_punwrap; intros ->; constructor|intros; apply pp_ret]. }
      intros h3 e2 _. apply pp_bind; [|intros; apply pp_ret]. destruct s as [s|]; [|apply pp_ret]. apply pp_bind; [apply pp_punwrap; intros ->; constructor|intros; apply pp_ret].
    - intros h2 r Hr. assert (Hr' : exists v0 v1, v = Some v0 /\ unquote v0 = Ok v1 /\ r.1.1 = v1 /\ h2 = h /\ (forall x, r.1.2 = Some x -> e = Some (Some x))).
      { unfold make_decl, pbind, punwrap, pret in Hr. destruct v as [v0|]; [|done]. destruct (unquote v0) as [v1| | |] eqn:Hu; try done. exists v0, v1. split; [done|]. split; [done|].
        destruct e as [[?|]|]; try done; destruct s as [[?|]|]; try done; injection Hr as <- <-; split; try done; (split; [done|]); intros x Hx; cbn in Hx; congruence. }
      destruct Hr' as (v0 & v1 & -> & Hu & <- & -> & He). apply pp_bind.
      { apply pp_punwrap. intros HN. assert (Hq : unquoted v0 r.1.1).
        { destruct (C15_exhaustive v0) as [Hx|(q & Hq & [->|[[t ->]|(t & -> & Ht & Ht')]])].
          - left. rewrite C15_unquoted in Hu by done. injection Hu as <-. by split.
          - by rewrite C15_single_quote_panics in Hu.
          - rewrite C15_quoted in Hu by done. injection Hu as <-. right. by exists q.
          - by rewrite C15_unbalanced in Hu. }
        eapply be_version; [exact Hq|intros Hx..].
        - assert (Hs : version_from_str r.1.1 = Some V10) by (by apply C14_version). congruence.
        - assert (Hs : version_from_str r.1.1 = Some V11) by (by apply C14_version). congruence. }
      intros h3 ver Hv. assert (h3 = h) as -> by (unfold punwrap in Hv; destruct (version_from_str _); [|done]; by injection Hv). apply pp_bind.
      { apply pp_dom. intros [q Hq]. unfold lift in Hq. destruct r.1.2 as [x|] eqn:Hx; [|done]. rewrite (He x eq_refl). apply be_encoding. intros Hen. destruct (C14_accepts ver (Some x) r.2) as [HA _]. rewrite HA in Hq by done. done. }
      intros h4 d Hd%pdom_ok. injection Hd as <- _. apply pp_dom. intros HP. exfalso. revert HP. unfold set_xml_declaration. rewrite (panics_node _ _ _ _ Hnd), Hxd. unfold panics. rewrite (modifyM_eq _ _ _ _ Hnd). by intros [q Hq].
  Qed.

  (** ** The two loops *)
  Definition some_bad (evs : list event) : Prop := exists ev, In ev evs /\ bad_event E ev.
  Lemma bad_here ev evs : bad_event E ev -> some_bad (ev :: evs).
  Proof. intros H. exists ev. split; [by left|done]. Qed.
  Lemma bad_later ev evs : some_bad evs -> some_bad (ev :: evs).
  Proof. intros (x & H1 & H2). exists x. split; [by right|done]. Qed.
  Lemma bad_in evs evs' : (forall x, In x evs -> In x evs') -> some_bad evs -> some_bad evs'.
  Proof. intros HI (x & H1 & H2). exists x. auto. Qed.
  Lemma pp_element : forall k par evs h h' rest r, Inv h -> plain_doc h doc -> inside h doc par -> element k E doc par evs h = (h', rest, r) ->
    (forall x, In x rest -> In x evs) /\ (forall p, r = PPanic p -> some_bad evs).
  Proof.
    induction k as [|k IH]; intros par evs h h' rest r HI Hd Hp H; [injection H as <- <- <-; by split|].
    assert (HS : forall A (m : PM A) ev evs0, ptriple Lb h m (fun _ _ => True) -> pp h m (bad_event E ev) ->
      match m h with
      | (h1, POk _) => element k E doc par evs0 h1
      | (h1, PErr e) => (h1, evs0, PErr e)
      | (h1, PPanic p) => (h1, evs0, PPanic p)
      | (h1, PDiverge) => (h1, evs0, PDiverge)
      end = (h', rest, r) -> (forall x, In x rest -> In x (ev :: evs0)) /\ (forall p, r = PPanic p -> some_bad (ev :: evs0))).
    { intros A m ev evs0 Ht Hb H0. destruct (m h) as [h1 [a|e|p|]] eqn:Em.
      - destruct (Ht HI _ _ Em Logic.I) as [Hs _]. eapply IH in H0 as [H1 H2]; [|eapply isteps_inv; by eauto|eapply isteps_plain; by eauto|eapply isteps_inside; by eauto]. split; [intros x Hx; right; by apply H1|]. intros p Hp'. by eapply bad_later, H2.
      - injection H0 as <- <- <-. split; [by right|done].
      - injection H0 as <- <- <-. split; [by right|]. intros _ _. apply bad_here. by eapply Hb.
      - injection H0 as <- <- <-. split; [by right|done]. }
    pose proof (plain_is_doc _ _ Hd) as Hdoc. cbn [element] in H. destruct evs as [|ev evs]; [injection H as <- <- <-; by split|].
    destruct ev as [v e s|name attrs|name attrs| |t|t|t|t| |]; try (injection H as <- <- <-; split; [by right|done]).
    - destruct (pp_start h par name attrs HI Hd Hp) as [HB HIn]. destruct (handle_start E doc par name attrs h) as [h1 [el|e|p|]] eqn:Em.
      + destruct (p_start E doc h par name attrs Hdoc HI _ _ Em Logic.I) as [Hs1 _]. assert (HI1 : Inv h1) by (eapply isteps_inv; by eauto). assert (Hd1 : plain_doc h1 doc) by (eapply isteps_plain; by eauto).
        destruct (element k E doc el evs h1) as [[h2 rest2] r2] eqn:Ee. destruct (IH _ _ _ _ _ _ HI1 Hd1 (HIn _ _ eq_refl) Ee) as [H1 H2].
        assert (HE0 : (h2, rest2, r2) = (h', rest, r) -> (forall x, In x rest -> In x (EStart name attrs :: evs)) /\ (forall p, r = PPanic p -> some_bad (EStart name attrs :: evs))).
        { intros [= <- <- <-]. split; [intros x Hx; right; by apply H1|]. intros p Hp'. by eapply bad_later, H2. }
        destruct r2 as [x|e|p|]; try (by apply HE0).
        pose proof (p_element E doc _ _ _ _ _ _ _ HI1 (plain_is_doc _ _ Hd1) Ee Logic.I) as Hs2.
        eapply IH in H as [H3 H4]; [|eapply isteps_inv; by eauto|eapply isteps_plain; by eauto|eapply isteps_inside; [exact Hs2|exact HI1|eapply isteps_inside; by eauto]].
        split; [intros y Hy; right; by apply H1, H3|]. intros p Hp'. apply bad_later. eapply bad_in; [exact H1|]. by eapply H4.
      + injection H as <- <- <-. split; [by right|done].
      + injection H as <- <- <-. split; [by right|]. intros _ _. apply bad_here. by eapply HB.
      + injection H as <- <- <-. split; [by right|done].
    - eapply HS; [|intros h0 p0 Hp0; eapply pp_start; [exact HI|exact Hd|exact Hp|exact Hp0]|exact H]. by apply p_start.
    - eapply HS; [|by apply pp_comment|exact H]. by apply p_comment.
    - eapply HS; [|by apply pp_pi|exact H]. by apply p_pi.
    - eapply HS; [|by apply pp_text|exact H]. by apply p_text.
    - eapply HS; [|by apply pp_cdata|exact H]. by apply p_cdata.
  Qed.
  Lemma pp_document : forall k evs h h' p, Inv h -> plain_doc h doc -> document_loop k E doc evs h = (h', PPanic p) -> some_bad evs.
  Proof.
    induction k as [|k IH]; intros evs h h' p HI Hd H; [done|].
    assert (Hp : inside h doc doc) by (destruct (plain_is_doc _ _ Hd) as (s & Hs & _); exists s; split; [done|by left]).
    assert (HS : forall A (m : PM A) ev evs0, ptriple Lb h m (fun _ _ => True) -> pp h m (bad_event E ev) ->
      match m h with
      | (h1, POk _) => document_loop k E doc evs0 h1
      | (h1, PErr e) => (h1, PErr e)
      | (h1, PPanic p) => (h1, PPanic p)
      | (h1, PDiverge) => (h1, PDiverge)
      end = (h', PPanic p) -> some_bad (ev :: evs0)).
    { intros A m ev evs0 Ht Hb H0. destruct (m h) as [h1 [a|e|q|]] eqn:Em; try done.
      - destruct (Ht HI _ _ Em Logic.I) as [Hs _]. eapply IH in H0; [|eapply isteps_inv; by eauto|eapply isteps_plain; by eauto]. by apply bad_later.
      - apply bad_here. by eapply Hb. }
    pose proof (plain_is_doc _ _ Hd) as Hdoc. cbn [document_loop] in H. destruct evs as [|ev evs]; [done|].
    destruct ev as [v e s|name attrs|name attrs| |t|t|t|t| |]; try done.
    - eapply HS; [|by apply pp_decl|exact H]. apply p_decl.
    - destruct (pp_start h doc name attrs HI Hd Hp) as [HB HIn]. destruct (handle_start E doc doc name attrs h) as [h1 [el|e|q|]] eqn:Em; try done.
      + destruct (p_start E doc h doc name attrs Hdoc HI _ _ Em Logic.I) as [Hs1 _]. assert (HI1 : Inv h1) by (eapply isteps_inv; by eauto). assert (Hd1 : plain_doc h1 doc) by (eapply isteps_plain; by eauto).
        destruct (element (S (length evs)) E doc el evs h1) as [[h2 rest2] r2] eqn:Ee. destruct (pp_element _ _ _ _ _ _ _ HI1 Hd1 (HIn _ _ eq_refl) Ee) as [H1 H2].
        apply bad_later. destruct r2 as [x|e|q|]; [| |by eapply H2|done].
        all: pose proof (p_element E doc _ _ _ _ _ _ _ HI1 (plain_is_doc _ _ Hd1) Ee Logic.I) as Hs2; eapply bad_in; [exact H1|]; eapply IH; [eapply isteps_inv; by eauto|eapply isteps_plain; by eauto|exact H].
      + apply bad_here. by eapply HB.
    - eapply HS; [|intros h0 p0 Hp0; eapply pp_start; [exact HI|exact Hd|exact Hp|exact Hp0]|exact H]. by apply p_start.
    - apply bad_later. eapply IH; [exact HI|exact Hd|exact H].
    - eapply HS; [|by apply pp_comment|exact H]. by apply p_comment.
    - eapply HS; [|by apply pp_pi|exact H]. by apply p_pi.
  Qed.
End read.

Theorem C68_read : forall E h evs, wf_env E -> reachable h ->
  (exists p, (exec E (OReadXml evs) h).2 = Panic p) -> exists ev, In ev evs /\ bad_event E ev.
Proof.
  intros E h evs HE Hr [p Hp]. pose proof (reachable_inv h Hr) as HI. cbn [exec] in Hp. unfold read_xml_op, read_events in Hp.
  set (nd := new_document None (set_add_namespaces options_new)) in *.
  assert (Hc : create_document None None None h = (allocd nd h, Ok (h_next h))) by done.
  unfold pdom_unwrap, pdom, err_to_panic in Hp. rewrite Hc in Hp.
  assert (HI1 : Inv (allocd nd h)).
  { assert (T : triple Lb h (create_document None None None) (fun d h' => is_doc h' d)) by (by apply t_create_document). destruct (T HI _ _ Hc Logic.I) as [Hs _]. by eapply isteps_inv. }
  destruct (document_loop (S (length evs)) E (h_next h) evs (allocd nd h)) as [h2 [d|[]|q|]] eqn:Hl; try done.
  eapply pp_document; [exact HE|exact HI1| |exact Hl]. exists nd, None, None, [], (set_add_namespaces options_new). split; [cbn; by rewrite lookup_insert|done].
Qed.
Print Assumptions C68_read.

(** Every cause in the list does make some document panic. *)
Definition read_panics (evs : list event) : bool := match (exec env0 (OReadXml evs) empty_heap).2 with Panic _ => true | _ => false end.
Definition ex_bad_events : list (list event) :=
  [ [EDecl None None None]; [EDecl (Some (lit "'")) None None]; [EDecl (Some (lit "1.2")) None None]; [EDecl (Some (lit "'2.0'")) None None];
    [EDecl (Some (lit "1.0")) (Some None) None]; [EDecl (Some (lit "1.0")) (Some (Some (lit "8"))) None]; [EDecl (Some (lit "1.0")) None (Some None)];
    [EStart (Some (lit "1")) []; EEnd]; [EStart (Some [233%N]) []; EEnd]; [EStart (Some (lit "a")) [PAttrMalformed]; EEnd]; [EStart (Some (lit "a")) [PAttr [233%N] (lit "v")]; EEnd];
    [EStart (Some (lit "a")) [PAttr (lit "k") (lit "&lt;"); PAttr (lit "xml:id") (lit "&lt;")]; EEnd]; [EStart (Some (lit "a")) []; EText (Some (lit "t")); EEmpty (Some (lit "1")) []; EEnd];
    [EEmpty (Some (lit "a")) [PAttrMalformed]]; [EPI (Some (lit "xMl a")); EEmpty (Some (lit "a")) []]; [EEmpty (Some (lit "a")) []; EPI (Some (lit "1 a"))] ].
Definition ex_good_events : list (list event) :=
  [ [EDecl (Some (lit "1.1")) (Some (Some (lit "utf-8"))) (Some (Some (lit "maybe"))); EStart (Some (lit "a")) [PAttr (lit "xml:id") (lit "&#65;")]; EEmpty (Some (lit "b")) [PAttr (lit "1") (lit "v")]; EEnd];
    [EDecl (Some (lit "'1.0")) None None]; [EStart None []]; [EEnd]; [EText (Some [])]; [EPI None]; [EPI (Some (lit "p"))]; [EDocType]; [EError] ].
Example C68_read_example : forallb read_panics ex_bad_events = true /\ forallb (fun evs => negb (read_panics evs)) ex_good_events = true.
Proof. by vm_compute. Qed.
Example C68_read_cause : exists ev, In ev [EEmpty (Some (lit "a")) []; EPI (Some (lit "1 a"))] /\ bad_event env0 ev.
Proof.
  apply (C68_read env0 empty_heap); [apply wf_env0|constructor|]. destruct (exec env0 _ empty_heap).2 as [a|e|p|] eqn:Hx; [| |by exists p|]; exfalso.
  all: assert (Hp : read_panics [EEmpty (Some (lit "a")) []; EPI (Some (lit "1 a"))] = true) by (by vm_compute); unfold read_panics in Hp; by rewrite Hx in Hp.
Qed.
