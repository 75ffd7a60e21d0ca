(** * ProofCut: input that goes wrong inside the document element, or at the top *)
From Coq Require Import Lia.
From Verif Require Import SpecParse ProofAttr ProofSteps ProofInv ProofElem ProofInsert PropName PropFactory ProofParse.

#[local] Opaque attr_value.

(** An element made in [h1] and filled up to [h2]. *)
Lemma close_ok E h h1 h2 d p m name k l al kids ws1 m2 cs : filling h d m -> plain_name name k ->
  into d p [h_next h] (id_entries (h_next h) ws1) h h1 -> (h_next h < h_next h1)%nat ->
  h_nodes h1 !! h_next h = Some (mkNode NElement k None (Some p) (Some d) [] (XElement al [])) ->
  Forall2 (holds_attr E (sees (S (h_next h)) h1) (fun w e => In (w, e) (m ++ id_entries (h_next h) ws1)) d (h_next h)) al l ->
  into d (h_next h) cs m2 h1 h2 -> Forall2 (ok_below E d (h_next h) h1 h2 (m ++ id_entries (h_next h) ws1) m2) cs kids ->
  (h_next h < h_next h2)%nat /\ into d p [h_next h] (id_entries (h_next h) ws1 ++ m2) h h2 /\
  ok_below E d p h h2 m (id_entries (h_next h) ws1 ++ m2) (h_next h) (PElement name l kids).
Proof.
  intros Hf Hnm Hi Hlt He Ha [Hn1 Hn2] Hok2. set (e := h_next h) in *. pose proof Hf as [Hd _]. assert (Hed : e <> d) by (unfold e; lia).
  split; [lia|]. split; [apply (into_below d p e [e] cs _ _ h h1 h2); [done|done|by split]|].
  unfold ok_below. eapply ho_element.
  - exact Hnm.
  - rewrite sees_at by (fold e; lia). fold e. rewrite Hn2, He by lia. cbn. unfold changed. rewrite (decide_False (P := e = d)) by done.
    rewrite (decide_True (P := e = e)) by done. done.
  - eapply holds_attrs_mono; [| |exact Ha].
    + intros j n Hj. fold e in Hj |- *. unfold sees in *. case_decide; [|done]. rewrite decide_True by lia.
      rewrite Hn2, Hj by lia. cbn. unfold changed. by rewrite !decide_False by lia.
    + intros w x Hin. rewrite app_assoc. apply in_or_app. by left.
  - eapply Forall2_impl; [exact Hok2|]. intros i y. apply ok_below_earlier. lia.
Qed.

(** A tag with a refused attribute: the element stays, with the attributes before that one. *)
Lemma attr_fault_ok E d e a err more h m : filling h d m -> attr_fault a err -> handle_attributes E d e (a :: more) h = (h, PErr err).
Proof.
  intros (_ & l & decl & o & Hn & _) Hf. destruct Hf as [|n v Hs|n v Hs]; [done|..]; cbn [handle_attributes]; unfold pbind, pdom, create_attribute_with, with_handle; rewrite (bind_node _ _ _ _ Hn).
  - apply C08_syntax_error in Hs. unfold bind, lift. by rewrite Hs.
  - apply C08_character_error in Hs. unfold bind, lift. by rewrite Hs.
Qed.
Lemma attrs_app E d e l2 : forall l1 h h1, handle_attributes E d e l1 h = (h1, POk tt) -> handle_attributes E d e (l1 ++ l2) h = handle_attributes E d e l2 h1.
Proof.
  induction l1 as [|x l1 IH]; intros h h1 H; [by injection H as <-|]. destruct x as [n v| |]; [|done..]. cbn [handle_attributes app] in *. unfold pbind in *.
  destruct (pdom (create_attribute_with d n v) h) as [h2 [a| | |]]; try done. destruct (pdom (set_attribute_node E e a) h2) as [h3 [y| | |]]; try done. by apply IH.
Qed.
Lemma broken_ok E h d p m name k l ws a err more : wf_env E -> filling h d m -> can_take h d p NElement -> plain_name name k -> good_attrs l ->
  Forall2 (shown E) (attr_ids l) ws -> NoDup ws -> (forall w, In w ws -> ~ In w (map fst m)) -> attr_fault a err ->
  exists h', handle_start E d p (Some name) (map attr_event l ++ a :: more) h = (h', PErr err) /\ (h_next h < h_next h')%nat /\
    into d p [h_next h] (id_entries (h_next h) ws) h h' /\ ok_below E d p h h' m (id_entries (h_next h) ws) (h_next h) (PElement name l []).
Proof.
  intros W Hf Hc Hk Hg Hsh Hws Hdis Ha. destruct (start_ok E h d p m name k l ws W) as (h' & al & Hs & Hi & Hlt & He & Hal); try done.
  assert (Hf' : filling h' d (m ++ id_entries (h_next h) ws)) by (by eapply filling_into).
  destruct (close_ok E h h' h' d p m name k l al [] ws [] []) as (_ & Hi2 & Hok); try done; [apply into_refl|].
  rewrite app_nil_r in Hi2, Hok. exists h'. split_and!; try done.
  unfold handle_start, pbind in *. destruct (pdecode (Some name) h) as [h1 [x| | |]]; try done.
  destruct (pdom_unwrap (create_element d x) h1) as [h2 [y| | |]]; try done. destruct (pdom (append_child p y) h2) as [h3 [z| | |]]; try done.
  destruct (handle_attributes E d z (map attr_event l) h3) as [h4 [[]| | |]] eqn:H4; try done. injection Hs as -> ->.
  rewrite (attrs_app E d _ _ _ _ _ H4). by rewrite (attr_fault_ok E d _ a err more h' _ Hf' Ha).
Qed.

(** Where reading below an element stops, what is left, and what was added last. *)
Inductive stops : list event -> list event -> list pnode -> Prop :=
| st_end : stops [] [] []
| st_bad ev rest : unacceptable ev -> stops (ev :: rest) rest []
| st_tag n l ev err rest : broken_tag n l ev err -> stops (ev :: rest) rest [PElement n l []].
Lemma and_then_nil : forall c, and_then c [] = c.
Proof. fix IH 1. intros [kids [[[n l] c]|]]; cbn; [by rewrite IH|by rewrite app_nil_r]. Qed.

Section cut.
  Context (E : env) (W : wf_env E) (d : id).
  Lemma stop_ok p tail rest x k h m ws : filling h d m -> can_hold h d p -> Forall readable x -> Forall2 (shown E) (raw_ids_all x) ws -> NoDup ws -> (forall w, In w ws -> ~ In w (map fst m)) ->
    stops tail rest x -> exists h' more cs e, element (S k) E d p tail h = (h', rest, PErr e) /\ into d p cs more h h' /\ map fst more = ws /\ Forall2 (ok_below E d p h h' m more) cs x.
  Proof.
    intros Hf Hc Hr Hsh Hws Hdis Hst. destruct Hst as [|ev r Hev|n l ev err r Hev].
    - cbn in Hsh. inversion Hsh; subst. exists h, [], []. eexists. split; [done|]. split; [apply into_refl|]. done.
    - cbn in Hsh. inversion Hsh; subst. destruct Hev; (exists h, [], []; eexists; split; [done|]; split; [apply into_refl|]; done).
    - apply Forall_cons in Hr as [Hr _]. inversion Hr as [? k' ? ? Hnm Hg _| | | | |]; subst. unfold raw_ids_all in Hsh. cbn in Hsh. rewrite !app_nil_r in Hsh.
      destruct Hev as [a more err Ha|a more err Ha]; (destruct (broken_ok E h d p m n k' l ws a err more W) as (h' & He & Hlt & Hi & Hok); try done; [by apply (can_hold_take h d p (PElement n l []))|]);
        exists h', (id_entries (h_next h) ws), [h_next h], err; cbn [element]; rewrite He; (split; [done|]); (split; [done|]); (split; [apply id_entries_fst|by repeat constructor]).
  Qed.
  Lemma cut_ok : forall c h p m ws tail rest fuel x, filling h d m -> can_hold h d p -> Forall readable (closed (and_then c x)) ->
    Forall2 (shown E) (raw_ids_all (closed (and_then c x))) ws -> NoDup ws -> (forall w, In w ws -> ~ In w (map fst m)) -> (length (open_events c) < fuel)%nat -> stops tail rest x ->
    exists h' more cs e, element fuel E d p (open_events c ++ tail) h = (h', rest, PErr e) /\ into d p cs more h h' /\ map fst more = ws /\
      Forall2 (ok_below E d p h h' m more) cs (closed (and_then c x)).
  Proof.
    fix IH 1. intros [kids inner] h p m ws tail rest fuel xs Hf Hc Hr Hsh Hws Hdis Hfu Hst.
    assert (Hk : items_ok E d kids) by (apply items_from; apply Forall_forall; intros x _; by apply every_item).
    pose proof (events_length kids) as Hlen. destruct inner as [[[name l] c]|]; cbn [closed open_events and_then] in *.
    - apply Forall_app in Hr as [Hr1 Hr2]. apply Forall_cons in Hr2 as [Hr2 _]. inversion Hr2 as [? k ? ? Hnm Hg Hrk| | | | |]; subst.
      rewrite app_length in Hfu. cbn [length] in Hfu.
      unfold raw_ids_all in Hsh. rewrite map_app, concat_app in Hsh. cbn in Hsh. rewrite app_nil_r in Hsh.
      apply Forall2_app_inv_l in Hsh as (ws0 & ws12 & Hs0 & Hs12 & ->). apply Forall2_app_inv_l in Hs12 as (ws1 & ws2 & Hs1 & Hs2 & ->).
      apply NoDup_app in Hws as (Hw0 & Hw012 & Hw12). apply NoDup_app in Hw12 as (Hw1 & Hw12 & Hw2).
      destruct (Hk h p m ws0 (EStart (Some name) (map attr_event l) :: open_events c ++ tail) fuel) as (h1 & m1 & cs1 & He1 & Hi1 & Hm1 & Hok1); try done; [|lia|].
      { intros w Hw. apply Hdis. apply in_or_app. by left. }
      assert (Hf1 : filling h1 d (m ++ m1)) by (by eapply filling_into). assert (Hc1 : can_hold h1 d p) by (by eapply can_hold_into).
      assert (Hdis1 : forall w, In w (ws1 ++ ws2) -> ~ In w (map fst (m ++ m1))) by (by eapply ids_apart).
      destruct (start_ok E h1 d p (m ++ m1) name k l ws1 W Hf1) as (h2 & al & Hs & Hi2 & Hlt2 & Hel & Ha); try done; [by apply (can_hold_take h1 d p (PElement name l []))| |].
      { intros w Hw. apply Hdis1. apply in_or_app. by left. }
      set (e := h_next h1) in *.
      assert (Hf2 : filling h2 d ((m ++ m1) ++ id_entries e ws1)) by (by eapply filling_into).
      destruct (fuel - length kids)%nat as [|fuel'] eqn:Hfk; [lia|].
      destruct (IH c h2 e ((m ++ m1) ++ id_entries e ws1) ws2 tail rest fuel' xs) as (h3 & m3 & cs3 & err & He3 & Hi3 & Hm3 & Hok3); try done.
      { eexists. split; [exact Hel|]. done. }
      { eapply ids_apart; [apply id_entries_fst|done..]. }
      { lia. }
      destruct (close_ok E h1 h2 h3 d p (m ++ m1) name k l al (closed (and_then c xs)) ws1 m3 cs3) as (Hlt3 & Hi & Hok); try done.
      pose proof Hf as [Hd _]. pose proof Hc as (np & _ & Hp & _). pose proof Hi1 as [Hn1 _].
      exists h3, (m1 ++ (id_entries e ws1 ++ m3)), (cs1 ++ [e]), err. split; [|split; [|split]].
      + rewrite <- app_assoc. cbn [app]. rewrite He1. cbn [element]. rewrite Hs. by rewrite He3.
      + by eapply into_trans.
      + rewrite !map_app, id_entries_fst, Hm1, Hm3. done.
      + apply Forall2_app.
        * eapply Forall2_impl; [exact Hok1|]. intros i y. by apply (ok_below_later E d p h h1 h3 m m1 (id_entries e ws1 ++ m3) [e]).
        * constructor; [|constructor]. apply (ok_below_earlier E d p h h1 h3); [lia|done].
    - apply Forall_app in Hr as [Hr1 Hr2]. unfold raw_ids_all in Hsh. rewrite map_app, concat_app in Hsh.
      apply Forall2_app_inv_l in Hsh as (ws0 & ws1 & Hs0 & Hs1 & ->). apply NoDup_app in Hws as (Hw0 & Hw01 & Hw1).
      destruct (Hk h p m ws0 tail fuel) as (h1 & m1 & cs1 & He1 & Hi1 & Hm1 & Hok1); try done; [|lia|].
      { intros w Hw. apply Hdis. apply in_or_app. by left. }
      destruct (fuel - length kids)%nat as [|fuel'] eqn:Hfk; [lia|].
      assert (Hf1 : filling h1 d (m ++ m1)) by (by eapply filling_into). assert (Hc1 : can_hold h1 d p) by (by eapply can_hold_into).
      destruct (stop_ok p tail rest xs fuel' h1 (m ++ m1) ws1) as (h2 & m2 & cs2 & err & He2 & Hi2 & Hm2 & Hok2); try done; [by eapply ids_apart|].
      pose proof Hf as [Hd _]. pose proof Hc as (np & _ & Hp & _). pose proof Hi1 as [Hn1 _].
      exists h2, (m1 ++ m2), (cs1 ++ cs2), err. split; [by rewrite He1, He2|]. split; [by eapply into_trans|]. split; [by rewrite map_app, Hm1, Hm2|]. apply Forall2_app.
      + eapply Forall2_impl; [exact Hok1|]. intros i y. by apply (ok_below_later E d p h h1 h2 m m1 m2 cs2).
      + eapply Forall2_impl; [exact Hok2|]. intros i y. by apply (ok_below_earlier E d p h h1 h2).
  Qed.
  (** After the document element: end tags are skipped, comments and instructions added. *)
  Lemma misc_ok rest : forall l h m fuel, filling h d m -> ready h d false -> Forall (fun o => forall x, o = Some x -> misc_item x /\ readable x) l ->
    (length (misc_events l ++ rest) < fuel)%nat ->
    exists h' cs fuel', document_loop fuel E d (misc_events l ++ rest) h = document_loop fuel' E d rest h' /\ (length rest < fuel')%nat /\
      into d d cs [] h h' /\ Forall2 (ok_below E d d h h' m []) cs (misc_items l).
  Proof.
    induction l as [|o l IH]; intros h m fuel Hf Hrd Hl Hfu.
    - exists h, [], fuel. split; [done|]. split; [done|]. split; [apply into_refl|constructor].
    - apply Forall_cons in Hl as [Ho Hl]. destruct o as [x|]; cbn [misc_events] in *.
      + destruct (Ho x eq_refl) as [Hx Hr]. assert (Hraw : raw_ids x = []) by (by destruct x). rewrite <- app_assoc in *. rewrite app_length in Hfu. pose proof (events_pos x) as Hpos. destruct fuel as [|fuel]; [lia|].
        destruct (loop_item E W d x h m [] (misc_events l ++ rest) fuel false) as (h1 & m1 & He & Hlt & Hi & Hm1 & Hok); try done; try (by destruct x); try (by rewrite Hraw); try (by apply NoDup_nil); try (by intros w []).
        destruct m1; [|done].
        destruct (IH h1 m fuel) as (h2 & cs & fuel' & He2 & Hf2 & Hi2 & Hok2); try done; [rewrite <- (app_nil_r m); by eapply filling_into|by eapply ready_into|lia|].
        pose proof Hf as [Hd _]. exists h2, (h_next h :: cs), fuel'. split; [by rewrite He|]. split; [done|]. split; [by apply (into_trans d d [h_next h] cs [] [] h h1 h2)|].
        change (misc_items (Some x :: l)) with (x :: misc_items l). constructor; [by apply (ok_below_later E d d h h1 h2 m [] [] cs)|].
        eapply Forall2_impl; [exact Hok2|]. intros i y Hy. apply (ok_below_earlier E d d h h1 h2 m [] []); [lia|]. by rewrite app_nil_r.
      + destruct fuel as [|fuel]; [lia|]. cbn [length app] in Hfu. destruct (IH h m fuel) as (h2 & cs & fuel' & He2 & Hok2); try done; [lia|]. exists h2, cs, fuel'. done.
  Qed.
End cut.

(** ** Faults at the top *)
Lemma any_element_true h l : Forall (fun i => h_nodes h !! i <> None) l -> (exists i n, In i l /\ h_nodes h !! i = Some n /\ n_type n = NElement) -> any_element h l = Ok true.
Proof.
  intros Hal (i & n & Hin & Hn & Ht). induction Hal as [|j l Hj _ IH]; [done|]. cbn. destruct (h_nodes h !! j) as [nj|] eqn:Hnj; [|done]. rewrite (get_node_some _ _ _ Hnj). cbn [rbind].
  destruct (is_type NElement nj) eqn:Htj; [done|]. destruct Hin as [->|Hin]; [|by apply IH]. apply is_type_false in Htj. congruence.
Qed.
(** What a reading has done so far at the top. *)
Definition so_far (E : env) (h : heap) (d : id) (D : option xml_decl) (items : list pnode) : Prop :=
  (d < h_next h)%nat /\ exists l m o, h_nodes h !! d = Some (mkNode NDocument name_for_document None None None l (XDocument D None m o)) /\
    has_assume_ids o = false /\ Forall2 (fun i x => (i < h_next h)%nat /\ holds E (fun i => h_nodes h !! i) (fun w e => In (w, e) m) d d i x) l items.
Lemma holds_node E look reg d p i x : holds E look reg d p i x -> exists n, look i = Some n /\ n_type n = node_kind x.
Proof. intros []; eexists; split; try eassumption; done. Qed.
Lemma top_fault_ok E h d D items ev err rest k : so_far E h d D items -> top_fault D (existsb is_element items) ev err ->
  exists h', document_loop (S k) E d (ev :: rest) h = (h', PErr err).
Proof.
  intros (Hlt & l & m & o & Hd & Ho & Hk) Hf.
  assert (Hsec : forall n nk attrs, existsb is_element items = true -> plain_name n nk -> exists h', handle_start E d d (Some n) attrs h = (h', PErr (PEDom HierarchyRequest))).
  { intros n nk attrs He Hn. assert (Hfill : filling h d m) by (split; [done|]; do 3 eexists; split; [exact Hd|done]).
    unfold handle_start, pbind, pdecode, pret, pdom_unwrap, pdom, err_to_panic. rewrite (create_element_eq h d m n nk Hfill Hn).
    set (h1 := allocd (new_element d nk) h). set (c := h_next h).
    assert (Hc : h_nodes h1 !! c = Some (new_element d nk)) by (unfold h1, c; cbn; by rewrite lookup_insert).
    assert (Hold : forall i, (i < c)%nat -> h_nodes h1 !! i = h_nodes h !! i) by (intros i Hi; unfold h1; cbn; rewrite lookup_insert_ne; [done|unfold c in *; lia]).
    assert (Hd1 := Hd). rewrite <- Hold in Hd1 by done.
    unfold append_child, insert_before. rewrite (bind_node _ _ _ _ Hd1), (bind_node _ _ _ _ Hc). cbn [n_type new_element is_child_allowed negb n_children].
    match goal with |- context [is_type NDocument ?a && is_type NElement ?b] => replace (is_type NDocument a && is_type NElement b) with true by done end.
    rewrite (bind_read _ true); [by eexists|]. apply any_element_true.
    - apply Forall_forall. intros i (j & Hj)%elem_of_list_lookup. destruct (Forall2_lookup_l _ _ _ _ _ Hk Hj) as (x & _ & Hi & Hx).
      destruct (holds_node _ _ _ _ _ _ _ Hx) as (ni & Hni & _). rewrite Hold by done. by rewrite Hni.
    - apply existsb_exists in He as (x & Hx & Hel). apply elem_of_list_In, elem_of_list_lookup in Hx as (j & Hj).
      destruct (Forall2_lookup_r _ _ _ _ _ Hk Hj) as (i & Hi & Hin & Hh). destruct (holds_node _ _ _ _ _ _ _ Hh) as (ni & Hni & Ht).
      exists i, ni. split; [apply elem_of_list_In; by eapply elem_of_list_lookup_2|]. split; [by rewrite Hold|]. rewrite Ht. by destruct x. }
  inversion Hf; subst; try (by eexists).
  - (* a second declaration *)
    cbn [document_loop]. unfold handle_decl, pbind at 1, pdom at 1, lift, xml_declaration. rewrite (get_node_some _ _ _ Hd). cbn [rbind n_ext]. by eexists.
  - destruct (Hsec n k0 l0 ltac:(congruence) ltac:(assumption)) as (h' & Hs). exists h'. cbn [document_loop]. by rewrite Hs.
  - destruct (Hsec n k0 l0 ltac:(congruence) ltac:(assumption)) as (h' & Hs). exists h'. cbn [document_loop]. by rewrite Hs.
Qed.
