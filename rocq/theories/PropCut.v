(** * Property C55: input that goes wrong *)
From Coq Require Import Lia.
From Verif Require Import SpecParse SpecTree ProofText ProofAttr ProofName ProofSteps PropName PropText ProofInv ProofElem ProofInsert PropFactory ProofParse ProofCut PropShow PropParse.

#[local] Opaque attr_value.

Lemma begun_so_far E h h1 h2 D cs more items : begun h h1 D -> into (h_next h) (h_next h) cs more h1 h2 ->
  Forall2 (ok_below E (h_next h) (h_next h) h1 h2 [] more) cs items -> so_far E h2 (h_next h) D items.
Proof.
  intros Hb Hi Hok. destruct (begun_into E h h1 h2 D cs more _ items Hb Hi eq_refl Hok) as [_ Hnew _]. split; [lia|].
  destruct Hb as (H1 & H2 & H3), Hi as [Hn1 Hn2]. do 3 eexists. rewrite Hn2, H2 by lia. cbn [fmap option_fmap option_map]. unfold changed. rewrite !decide_True by done. unfold grow_ids, grow_kids, doc_node, set_ext, set_children. cbn.
  split; [reflexivity|]. split; [done|]. eapply Forall2_impl; [exact Hok|]. intros i x Hx. split.
  - destruct (holds_node _ _ _ _ _ _ _ Hx) as (n & Hl & _). unfold sees in Hl. case_decide; [lia|done].
  - revert Hx. apply holds_mono; [|done]. intros j n. unfold sees. by case_decide.
Qed.

Lemma so_far_take E h d D items : so_far E h d D items -> Forall (fun x => is_element x = false) items -> can_take h d d NElement.
Proof.
  intros Hfar Heb. destruct Hfar as (Hlt & cs & m & o & Hd & Ho & Hk). eexists. split; [exact Hd|]. split; [done|]. split; [done|]. split; [by left|]. intros _ _. cbn [n_children]. split.
  - clear -Hk Heb. induction Hk as [|i x cs b [Hi Hx] _ IH]; [done|]. apply Forall_cons in Heb as [Hx0 Heb]. cbn. destruct (holds_node _ _ _ _ _ _ _ Hx) as (ni & Hni & Ht).
    rewrite (get_node_some _ _ _ Hni). cbn [rbind]. assert (is_type NElement ni = false) as -> by (apply is_type_false; rewrite Ht; by destruct x). by apply IH.
  - clear -Hk. by induction Hk as [|i x cs b [Hi Hx] _ IH]; constructor.
Qed.

(** The document so far: the declaration, items before the document element, the document element with
    all that was still open closed where the fault was found, and what follows. *)
Section cut.
  Context (E : env) (W : wf_env E).
  Lemma cut_read h evd D before n k l c tail rest x after more_events ids :
    declared evd D -> Forall readable before -> Forall top_item before -> Forall (fun x => is_element x = false) before ->
    plain_name n k -> good_attrs l -> Forall readable (closed (and_then c x)) -> stops tail rest x -> rest = misc_events after ++ more_events ->
    Forall (fun o => forall x, o = Some x -> misc_item x /\ readable x) after ->
    Forall2 (shown E) (raw_ids_all before ++ attr_ids l ++ raw_ids_all (closed (and_then c x))) ids -> NoDup ids ->
    exists h0 h' cs more fuel, begun h h0 D /\
      read_events E (evd ++ events_of_all before ++ EStart (Some n) (map attr_event l) :: open_events c ++ tail) h = document_loop fuel E (h_next h) more_events h' /\
      (length more_events < fuel)%nat /\ map fst more = ids /\ into (h_next h) (h_next h) cs more h0 h' /\
      Forall2 (ok_below E (h_next h) (h_next h) h0 h' [] more) cs (before ++ PElement n l (closed (and_then c x)) :: misc_items after).
  Proof.
    intros Hdecl Hrb Htb Heb Hn Hg Hrc Hst Hrest Haf Hsh Hnd. rewrite read_events_eq.
    destruct (declared_ok E h evd D (events_of_all before ++ EStart (Some n) (map attr_event l) :: open_events c ++ tail) Hdecl) as (h1 & fu & Hb & -> & Hfu).
    destruct (begun_filling _ _ _ Hb) as [Hf Hrd]. set (d := h_next h) in *.
    apply Forall2_app_inv_l in Hsh as (ws0 & ws12 & Hs0 & Hs12 & ->). apply Forall2_app_inv_l in Hs12 as (ws1 & ws2 & Hs1 & Hs2 & ->).
    apply NoDup_app in Hnd as (Hw0 & Hw012 & Hw12). pose proof Hw12 as Hw12'. apply NoDup_app in Hw12' as (Hw1 & Hw12' & Hw2).
    pose proof (events_length before) as Hlen. rewrite !app_length in Hfu. cbn [length] in Hfu. rewrite app_length in Hfu.
    destruct (loop_items E W d before h1 [] ws0 (EStart (Some n) (map attr_event l) :: open_events c ++ tail) fu) as (h2 & m1 & cs1 & He1 & Hi1 & Hm1 & Hok1); try done.
    { unfold one_root. assert (List.filter is_element before = []) as ->; [|cbn; lia]. clear -Heb. induction Heb as [|x b Hx _ IH]; [done|]. cbn. by rewrite Hx. }
    { intros w _ []. }
    { lia. }
    rewrite He1. destruct (fu - length before)%nat as [|f1] eqn:Hf1; [lia|].
    assert (Hfill2 : filling h2 d m1) by (change m1 with ([] ++ m1); by eapply filling_into).
    assert (Hd1 : (d < h_next h1)%nat) by (destruct Hf; done).
    assert (Hfar : so_far E h2 d D before) by (by eapply begun_so_far).
    pose proof (so_far_take E h2 d D before Hfar Heb) as Hrd2.
    assert (Hdis : forall w, In w (ws1 ++ ws2) -> ~ In w (map fst m1)).
    { apply (ids_apart [] m1 ws0 (ws1 ++ ws2) Hm1 Hw012). intros w _ []. }
    destruct (start_ok E h2 d d m1 n k l ws1 W Hfill2) as (h3 & al & Hs & Hi3 & Hlt3 & Hel & Ha); try done.
    { intros w Hw. apply Hdis. apply in_or_app. by left. }
    set (e := h_next h2) in *.
    assert (Hfill3 : filling h3 d (m1 ++ id_entries e ws1)) by (by eapply filling_into).
    destruct (cut_ok E W d c h3 e (m1 ++ id_entries e ws1) ws2 tail rest (S (length (open_events c ++ tail))) x) as (h4 & m4 & cs4 & err & He4 & Hi4 & Hm4 & Hok4); try done.
    { eexists. split; [exact Hel|]. done. }
    { eapply ids_apart; [apply id_entries_fst|done..]. }
    { rewrite app_length. lia. }
    destruct (close_ok E h2 h3 h4 d d m1 n k l al (closed (and_then c x)) ws1 m4 cs4) as (Hlt4 & Hi24 & Hok24); try done.
    assert (Hfill4 : filling h4 d (m1 ++ (id_entries e ws1 ++ m4))) by (by eapply filling_into).
    assert (Hlr : (length rest <= length tail)%nat) by (destruct Hst; cbn; lia).
    destruct (misc_ok E W d more_events after h4 (m1 ++ (id_entries e ws1 ++ m4)) f1) as (h5 & cs5 & f5 & He5 & Hf5 & Hi5 & Hok5); try done.
    { destruct Hfill4 as (Hlt & l4 & decl & o & Hd4 & _). eexists. split; [exact Hd4|]. done. }
    { subst rest. lia. }
    assert (Hi14 : into d d (cs1 ++ [e]) (m1 ++ (id_entries e ws1 ++ m4)) h1 h4) by (by eapply into_trans).
    exists h1, h5, ((cs1 ++ [e]) ++ cs5), ((m1 ++ (id_entries e ws1 ++ m4)) ++ []), f5. split; [done|]. split; [|split; [done|split; [|split]]].
    - cbn [document_loop]. fold d. rewrite Hs, He4. by rewrite Hrest.
    - rewrite !map_app, id_entries_fst, Hm1, Hm4. by rewrite app_nil_r.
    - by eapply into_trans.
    - pose proof Hi1 as [Hn1 _]. pose proof Hi14 as [Hn4 _].
      assert (HA : Forall2 (ok_below E d d h1 h4 [] (m1 ++ (id_entries e ws1 ++ m4))) (cs1 ++ [e]) (before ++ [PElement n l (closed (and_then c x))])).
      { apply Forall2_app.
        - eapply Forall2_impl; [exact Hok1|]. intros i y. by apply (ok_below_later E d d h1 h2 h4 [] m1 (id_entries e ws1 ++ m4) [e]).
        - constructor; [|constructor]. apply (ok_below_earlier E d d h1 h2 h4 [] m1); [lia|done]. }
      change (before ++ PElement n l (closed (and_then c x)) :: misc_items after) with (before ++ [PElement n l (closed (and_then c x))] ++ misc_items after). rewrite (app_assoc before). apply Forall2_app.
      + eapply Forall2_impl; [exact HA|]. intros i y. by apply (ok_below_later E d d h1 h4 h5 [] _ [] cs5).
      + eapply Forall2_impl; [exact Hok5|]. intros i y Hy. by apply (ok_below_earlier E d d h1 h4 h5 [] _ []).
  Qed.
End cut.

(** ** C55 *)
(** A fault inside the document element is not reported: the open elements are closed there, the input is
    read on at the top, and the rest of the open elements' end tags are skipped. *)
Theorem C55_swallowed : forall E h evd D before n k l c ev after ids, wf_env E -> declared evd D ->
  Forall readable before -> Forall top_item before -> Forall (fun x => is_element x = false) before ->
  plain_name n k -> good_attrs l -> Forall readable (closed c) -> unacceptable ev ->
  Forall (fun o => forall x, o = Some x -> misc_item x /\ readable x) after ->
  Forall2 (shown E) (raw_ids_all before ++ attr_ids l ++ raw_ids_all (closed c)) ids -> NoDup ids ->
  exists h' d, read_events E (evd ++ events_of_all before ++ EStart (Some n) (map attr_event l) :: open_events c ++ ev :: misc_events after) h = (h', POk d) /\
    read_into E h h' d D (before ++ PElement n l (closed c) :: misc_items after) ids.
Proof.
  intros E h evd D before n k l c ev after ids W Hd H1 H2 H3 H4 H5 H6 Hev Haf H7 H8.
  destruct (cut_read E W h evd D before n k l c (ev :: misc_events after) (misc_events after) [] after [] ids) as (h0 & h' & cs & more & fuel & Hb & He & Hfu & Hm & Hi & Hok); rewrite ?and_then_nil in *; try done; [by constructor|by rewrite app_nil_r|].
  exists h', (h_next h). split; [rewrite He; destruct fuel; [lia|]; done|]. by eapply begun_into.
Qed.
Print Assumptions C55_swallowed.
(** Input that ends inside the document element is accepted. *)
Theorem C55_unclosed : forall E h evd D before n k l c ids, wf_env E -> declared evd D ->
  Forall readable before -> Forall top_item before -> Forall (fun x => is_element x = false) before ->
  plain_name n k -> good_attrs l -> Forall readable (closed c) ->
  Forall2 (shown E) (raw_ids_all before ++ attr_ids l ++ raw_ids_all (closed c)) ids -> NoDup ids ->
  exists h' d, read_events E (evd ++ events_of_all before ++ EStart (Some n) (map attr_event l) :: open_events c) h = (h', POk d) /\
    read_into E h h' d D (before ++ [PElement n l (closed c)]) ids.
Proof.
  intros E h evd D before n k l c ids W Hd H1 H2 H3 H4 H5 H6 H7 H8.
  destruct (cut_read E W h evd D before n k l c [] [] [] [] [] ids) as (h0 & h' & cs & more & fuel & Hb & He & Hfu & Hm & Hi & Hok); rewrite ?and_then_nil in *; try done; [by constructor|].
  rewrite app_nil_r in He. exists h', (h_next h). split; [rewrite He; destruct fuel; [lia|]; done|]. by eapply begun_into.
Qed.
Print Assumptions C55_unclosed.
(** At the top every fault is reported: after well-formed items ... *)
Theorem C55_top_reported : forall E h evd D items ids ev err rest, wf_env E -> declared evd D ->
  Forall readable items -> Forall top_item items -> one_root items -> Forall2 (shown E) (raw_ids_all items) ids -> NoDup ids ->
  top_fault D (existsb is_element items) ev err ->
  exists h', read_events E (evd ++ events_of_all items ++ ev :: rest) h = (h', PErr err).
Proof.
  intros E h evd D items ids ev err rest W Hd Hr Ht Hone Hsh Hnd Hf. rewrite read_events_eq.
  destruct (declared_ok E h evd D (events_of_all items ++ ev :: rest) Hd) as (h1 & k & Hb & -> & Hk). destruct (begun_filling _ _ _ Hb) as [Hfi Hrd].
  pose proof (events_length items) as Hlen. rewrite app_length in Hk. cbn [length] in Hk.
  destruct (loop_items E W (h_next h) items h1 [] ids (ev :: rest) k) as (h2 & more & cs & He & Hi & Hm & Hok); try done; [intros w _ []|lia|].
  rewrite He. destruct (k - length items)%nat eqn:Hz; [lia|]. eapply top_fault_ok; [by eapply begun_so_far|done].
Qed.
Print Assumptions C55_top_reported.
(** ... and after a fault inside the document element, from which on the events are read as events at the top. *)
Theorem C55_later_reported : forall E h evd D before n k l c ev after ev2 err rest ids, wf_env E -> declared evd D ->
  Forall readable before -> Forall top_item before -> Forall (fun x => is_element x = false) before ->
  plain_name n k -> good_attrs l -> Forall readable (closed c) -> unacceptable ev ->
  Forall (fun o => forall x, o = Some x -> misc_item x /\ readable x) after ->
  Forall2 (shown E) (raw_ids_all before ++ attr_ids l ++ raw_ids_all (closed c)) ids -> NoDup ids -> top_fault D true ev2 err ->
  exists h', read_events E (evd ++ events_of_all before ++ EStart (Some n) (map attr_event l) :: open_events c ++ ev :: misc_events after ++ ev2 :: rest) h = (h', PErr err).
Proof.
  intros E h evd D before n k l c ev after ev2 err rest ids W Hd H1 H2 H3 H4 H5 H6 Hev Haf H7 H8 Hf.
  destruct (cut_read E W h evd D before n k l c (ev :: misc_events after ++ ev2 :: rest) (misc_events after ++ ev2 :: rest) [] after (ev2 :: rest) ids) as (h0 & h' & cs & more & fuel & Hb & He & Hfu & Hm & Hi & Hok); rewrite ?and_then_nil in *; try done; [by constructor|].
  rewrite He. destruct fuel; [lia|]. eapply top_fault_ok; [by eapply begun_so_far|]. by rewrite existsb_app, orb_true_r.
Qed.
Print Assumptions C55_later_reported.

(** An attribute that is refused (its value cannot be decoded, or its name is not one) is reported at the top ... *)
Theorem C55_attribute_reported : forall E h evd D before n k l ev err ids rest, wf_env E -> declared evd D ->
  Forall readable before -> Forall top_item before -> Forall (fun x => is_element x = false) before ->
  plain_name n k -> good_attrs l -> Forall2 (shown E) (raw_ids_all before ++ attr_ids l) ids -> NoDup ids -> broken_tag n l ev err ->
  exists h', read_events E (evd ++ events_of_all before ++ ev :: rest) h = (h', PErr err).
Proof.
  intros E h evd D before n k l ev err ids rest W Hdecl Hrb Htb Heb Hn Hg Hsh Hnd Hbt. rewrite read_events_eq.
  destruct (declared_ok E h evd D (events_of_all before ++ ev :: rest) Hdecl) as (h1 & fu & Hb & -> & Hfu). destruct (begun_filling _ _ _ Hb) as [Hf Hrd].
  apply Forall2_app_inv_l in Hsh as (ws0 & ws1 & Hs0 & Hs1 & ->). apply NoDup_app in Hnd as (Hw0 & Hw01 & Hw1).
  pose proof (events_length before) as Hlen. rewrite !app_length in Hfu. cbn [length] in Hfu.
  destruct (loop_items E W (h_next h) before h1 [] ws0 (ev :: rest) fu) as (h2 & m1 & cs1 & He1 & Hi1 & Hm1 & Hok1); try done.
  { unfold one_root. assert (List.filter is_element before = []) as ->; [|cbn; lia]. clear -Heb. induction Heb as [|x b Hx _ IH]; [done|]. cbn. by rewrite Hx. }
  { intros w _ []. }
  { lia. }
  rewrite He1. destruct (fu - length before)%nat as [|f1] eqn:Hf1; [lia|].
  assert (Hfill2 : filling h2 (h_next h) m1) by (change m1 with ([] ++ m1); by eapply filling_into).
  assert (Hfar : so_far E h2 (h_next h) D before) by (by eapply begun_so_far).
  pose proof (so_far_take E h2 _ D before Hfar Heb) as Hrd2.
  assert (Hdis : forall w, In w ws1 -> ~ In w (map fst m1)) by (apply (ids_apart [] m1 ws0 ws1 Hm1 Hw01); intros w _ []).
  destruct Hbt as [a more err Ha|a more err Ha]; (destruct (broken_ok E h2 (h_next h) (h_next h) m1 n k l ws1 a err more W Hfill2) as (h3 & He3 & _); try done); exists h3; cbn [document_loop]; by rewrite He3.
Qed.
Print Assumptions C55_attribute_reported.
(** ... and swallowed inside the document element: the element that has it stays, with the attributes before it. *)
Theorem C55_attribute_swallowed : forall E h evd D before n k l c n' l' ev err after ids, wf_env E -> declared evd D ->
  Forall readable before -> Forall top_item before -> Forall (fun x => is_element x = false) before ->
  plain_name n k -> good_attrs l -> Forall readable (closed (and_then c [PElement n' l' []])) -> broken_tag n' l' ev err ->
  Forall (fun o => forall x, o = Some x -> misc_item x /\ readable x) after ->
  Forall2 (shown E) (raw_ids_all before ++ attr_ids l ++ raw_ids_all (closed (and_then c [PElement n' l' []]))) ids -> NoDup ids ->
  exists h' d, read_events E (evd ++ events_of_all before ++ EStart (Some n) (map attr_event l) :: open_events c ++ ev :: misc_events after) h = (h', POk d) /\
    read_into E h h' d D (before ++ PElement n l (closed (and_then c [PElement n' l' []])) :: misc_items after) ids.
Proof.
  intros E h evd D before n k l c n' l' ev err after ids W Hd H1 H2 H3 H4 H5 H6 Hev Haf H7 H8.
  destruct (cut_read E W h evd D before n k l c (ev :: misc_events after) (misc_events after) [PElement n' l' []] after [] ids) as (h0 & h' & cs & more & fuel & Hb & He & Hfu & Hm & Hi & Hok); try done; [by econstructor|by rewrite app_nil_r|].
  exists h', (h_next h). split; [rewrite He; destruct fuel; [lia|]; done|]. by eapply begun_into.
Qed.
Print Assumptions C55_attribute_swallowed.

(** The XML declaration is accepted once, and anywhere at the top: also after the document element. *)
Theorem C55_late_declaration : forall E h ev D items ids, wf_env E -> declares ev D ->
  Forall readable items -> Forall top_item items -> one_root items -> Forall2 (shown E) (raw_ids_all items) ids -> NoDup ids ->
  exists h' d, read_events E (events_of_all items ++ [ev]) h = (h', POk d) /\ read_into E h h' d (Some D) items ids.
Proof.
  intros E h ev D items ids W Hd Hr Ht Hone Hsh Hnd. rewrite read_events_eq.
  destruct (declared_ok E h [] None (events_of_all items ++ [ev]) dd_none) as (h1 & k & Hb & He1 & Hk). destruct (begun_filling _ _ _ Hb) as [Hfi Hrd]. cbn [app] in He1. rewrite He1.
  pose proof (events_length items) as Hlen. rewrite app_length in Hk. cbn [length] in Hk.
  destruct (loop_items E W (h_next h) items h1 [] ids [ev] k) as (h2 & more & cs & He & Hi & Hm & Hok); try done; [intros w _ []|lia|].
  rewrite He. destruct (k - length items)%nat as [|f] eqn:Hz; [lia|].
  pose proof (begun_into E h h1 h2 None cs more ids items Hb Hi Hm Hok) as [Hold Hnew _].
  pose proof Hb as (Hb1 & Hb2 & Hb3). pose proof (into_at _ _ _ _ _ _ (h_next h) _ Hi ltac:(lia) Hb2) as Hd2.
  unfold changed in Hd2. rewrite !decide_True in Hd2 by done. unfold grow_ids, grow_kids, doc_node, set_ext, set_children in Hd2. cbn in Hd2.
  rewrite (decl_ok E h2 _ _ _ _ ev D f [] Hd2 Hd). destruct f as [|f]; [lia|]. do 2 eexists. split; [reflexivity|]. split.
  - intros i Hi0. rewrite lookup_upd_ne by lia. by apply Hold.
  - done.
  - do 3 eexists. rewrite lookup_upd. split; [reflexivity|]. split; [done|]. eapply Forall2_impl; [exact Hok|]. intros i x. apply holds_mono; [|done].
    intros j n. unfold sees. case_decide; [|done]. rewrite lookup_upd_ne by lia. done.
Qed.
Print Assumptions C55_late_declaration.

(** *** Examples *)
(** [<a xml:id="i">t<b k="v"><c/>] and then a reader error, [</b></a>], and a comment: read without an error. *)
Definition ex_open : open_content := Open [PText (lit "t")] (Some (lit "b", [(lit "k", lit "v")], Open [PEmptyElement (lit "c") []] None)).
Example C55_example : exists h' d,
  read_events env0 (EStart (Some (lit "a")) [PAttr (lit "xml:id") (lit "i")] :: open_events ex_open ++ EError :: [EEnd; EEnd; EComment (Some (lit "end"))]) empty_heap = (h', POk d) /\
  open_events ex_open = [EText (Some (lit "t")); EStart (Some (lit "b")) [PAttr (lit "k") (lit "v")]; EEmpty (Some (lit "c")) []] /\
  Forall readable (closed ex_open) /\ good_attrs [(lit "xml:id", lit "i")] /\
  misc_events [None; None; Some (PComment (lit "end"))] = [EEnd; EEnd; EComment (Some (lit "end"))] /\
  to_string env0 h' d = Ok (lit "<a xml:id=""i"">t<b k=""v""><c></c></b></a><!--end-->").
Proof.
  assert (P : forall n k, name_from_str n = Ok k -> plain_name n k) by (intros n k Hk; by apply plain_name_ok).
  do 2 eexists. split; [by vm_compute|]. split; [done|]. split; [|split; [|split; [done|by vm_compute]]].
  - apply List.Forall_cons; [constructor|]. apply List.Forall_cons; [|apply List.Forall_nil]. eapply rd_element; [apply P; by vm_compute| |].
    + split; [by apply NoDup_check|]. each ltac:(eexists; apply P; by vm_compute).
    + apply List.Forall_cons; [|apply List.Forall_nil]. eapply rd_empty; [apply P; by vm_compute|]. split; [by apply NoDup_check|apply List.Forall_nil].
  - split; [by apply NoDup_check|]. each ltac:(eexists; apply P; by vm_compute).
Qed.
(** [<a k="v" 1="w"/>] is refused; inside [<a>] the tag [<b k="v" 1="w">] ends what is read of [<a>], and the element [b] with the attribute [k] stays in it. *)
Example C55_attribute_example : broken_tag (lit "b") [(lit "k", lit "v")] (EStart (Some (lit "b")) [PAttr (lit "k") (lit "v"); PAttr (lit "1") (lit "w")]) (PEDom InvalidCharacter) /\
  (read_events env0 [EEmpty (Some (lit "a")) [PAttr (lit "k") (lit "v"); PAttr (lit "1") (lit "w")]] empty_heap).2 = PErr (PEDom InvalidCharacter) /\
  (read_events env0 [EEmpty (Some (lit "a")) [PAttr (lit "k") (lit "v"); PAttrBadValue]] empty_heap).2 = PErr PEQuickXml /\
  exists h' d, read_events env0 [EStart (Some (lit "a")) []; EText (Some (lit "t")); EStart (Some (lit "b")) [PAttr (lit "k") (lit "v"); PAttr (lit "1") (lit "w")]; EEnd; EEnd] empty_heap = (h', POk d) /\
    to_string env0 h' d = Ok (lit "<a>t<b k=""v""></b></a>").
Proof.
  split; [|split; [by vm_compute|split; [by vm_compute|do 2 eexists; split; [by vm_compute|by vm_compute]]]].
  apply (bt_start _ [(lit "k", lit "v")] (PAttr (lit "1") (lit "w")) []). constructor. apply C08_character_error. by vm_compute.
Qed.
(** The same input with text in place of the comment is refused, since the text is now at the top; so is a second element. *)
Example C55_example_faults :
  (read_events env0 (EStart (Some (lit "a")) [] :: open_events ex_open ++ EError :: [EText (Some (lit "x")); EEnd; EEnd]) empty_heap).2 = PErr PEMalformed /\
  (read_events env0 (events_of_all ex_items ++ [EEmpty (Some (lit "z")) []]) empty_heap).2 = PErr (PEDom HierarchyRequest) /\
  (read_events env0 (ex_decl :: events_of_all ex_items ++ [ex_decl]) empty_heap).2 = PErr PEMalformed /\
  exists h' d, read_events env0 (events_of_all ex_items ++ [ex_decl]) empty_heap = (h', POk d).
Proof. split; [by vm_compute|]. split; [by vm_compute|]. split; [by vm_compute|]. do 2 eexists. by vm_compute. Qed.
(** So what is accepted need not be the events of a declaration and complete items. *)
Theorem C55_complete_refuted : ~ (forall evs h' d, read_events env0 evs empty_heap = (h', POk d) -> exists evd D items, declared evd D /\ evs = evd ++ events_of_all items).
Proof.
  intros H. destruct (read_events env0 [EStart (Some (lit "a")) []] empty_heap) as [h' r] eqn:Hr. assert (exists d, r = POk d) as [d ->] by (vm_compute in Hr; injection Hr as _ <-; by eexists).
  destruct (H _ _ _ Hr) as (evd & D & items & Hd & He). destruct Hd as [|ev x Hx]; [|by inversion Hx; subst].
  destruct items as [|x items]; [done|]. destruct x; cbn in He; try done. apply (f_equal length) in He. cbn in He. rewrite !app_length in He. cbn in He. lia.
Qed.
Print Assumptions C55_complete_refuted.
