(** * ProofName: names *)
From Verif Require Import History SpecName ProofText.
From Coq Require Import Lia.

Lemma name_start_spec c : is_xml_name_start_char c = true <-> name_start_char c.
Proof.
  unfold is_xml_name_start_char, name_start_char, is_ascii_uppercase, is_ascii_lowercase, rng, C_COLON.
  rewrite !orb_true_iff, !N.eqb_eq, !in_range_true. tauto.
Qed.
Lemma name_char_spec c : is_xml_name_char c = true <-> name_char c.
Proof.
  unfold is_xml_name_char, name_char, is_ascii_digit, ascii_digit, rng.
  rewrite !orb_true_iff, !N.eqb_eq, !in_range_true, name_start_spec. tauto.
Qed.
Lemma name_start_dec c : {name_start_char c} + {~ name_start_char c}.
Proof. destruct (is_xml_name_start_char c) eqn:H; [left|right]; rewrite <- name_start_spec; congruence. Qed.
Lemma forallb_name t : forallb is_xml_name_char t = true <-> Forall name_char t.
Proof.
  rewrite forallb_forall, List.Forall_forall. split; intros H x Hx; apply name_char_spec; auto.
Qed.

Lemma split_at_one c t : split_at (c :: t) 1 = if (c <? 128)%N then Some ([c], t) else None.
Proof.
  cbn. unfold utf8_len. destruct (N.ltb_spec c 128) as [H|H].
  - cbn. destruct t; done.
  - destruct (c <? 2048)%N; [done|]. by destruct (c <? 65536)%N.
Qed.

Lemma check_part_good x : good_part x -> check_part x = Ok x.
Proof.
  intros (c & t & -> & Hc & H128 & Ht). unfold check_part, is_xml_name, split_at_res. cbn [is_nil].
  rewrite (proj2 (name_start_spec c) Hc), split_at_one. rewrite (proj2 (N.ltb_lt _ _) H128). cbn [rbind snd].
  by rewrite (proj2 (forallb_name t) Ht).
Qed.
Lemma check_part_bad x : bad_part x -> check_part x = Err InvalidCharacter.
Proof.
  intros (c & t & -> & H). unfold check_part, is_xml_name, split_at_res. cbn [is_nil].
  destruct (is_xml_name_start_char c) eqn:Hc; [|done]. apply name_start_spec in Hc.
  destruct H as [H|[H128 Ht]]; [done|]. rewrite split_at_one, (proj2 (N.ltb_lt _ _) H128). cbn [rbind snd].
  destruct (forallb is_xml_name_char t) eqn:Hf; [|done]. by apply forallb_name in Hf.
Qed.
Lemma check_part_wide x : wide_part x -> check_part x = Panic PSlice.
Proof.
  intros (c & t & -> & Hc & H128). unfold check_part, is_xml_name, split_at_res. cbn [is_nil].
  rewrite (proj2 (name_start_spec c) Hc), split_at_one. by destruct (N.ltb_spec c 128); [lia|].
Qed.
Lemma part_cases x : x = [] \/ good_part x \/ bad_part x \/ wide_part x.
Proof.
  destruct x as [|c t]; [by left|]. right.
  destruct (name_start_dec c) as [Hc|Hc]; [|right; left; exists c, t; tauto].
  destruct (N.ltb_spec c 128) as [H|H]; [|right; right; by exists c, t].
  destruct (forallb is_xml_name_char t) eqn:Hf.
  - left. exists c, t. by rewrite <- forallb_name.
  - right. left. exists c, t. split; [done|]. right. split; [done|]. rewrite <- forallb_name. congruence.
Qed.

(** ** Splitting at colons *)
Lemma split_on_cons_ne sep s : exists w ws, split_on sep s = w :: ws.
Proof. destruct s as [|c s]; cbn; [eauto|]. destruct (c =? sep)%N; [eauto|]. destruct (split_on sep s); eauto. Qed.
Lemma split_on_free s : colon_free s -> split_on C_COLON s = [s].
Proof.
  unfold colon_free. induction s as [|c s IH]; intros H; cbn; [done|].
  destruct (N.eqb_spec c C_COLON) as [->|Hc]; [exfalso; apply H; by left|].
  rewrite IH; [done|]. intros Hin. apply H. by right.
Qed.
Lemma split_on_app a s : colon_free a -> split_on C_COLON (a ++ 58%N :: s) = a :: split_on C_COLON s.
Proof.
  unfold colon_free. induction a as [|c a IH]; intros H; cbn; [done|].
  destruct (N.eqb_spec c C_COLON) as [->|Hc]; [exfalso; apply H; by left|].
  rewrite IH; [done|]. intros Hin. apply H. by right.
Qed.
Lemma colon_cases s : colon_free s \/ exists a b, s = a ++ 58%N :: b /\ colon_free a.
Proof.
  unfold colon_free. induction s as [|c s IH]; [by left; intros []|].
  destruct (N.eq_dec c 58) as [->|Hc]; [right; exists [], s; split; [done|intros []]|].
  destruct IH as [IH|(a & b & -> & Ha)].
  - left. intros [H|H]; [done|tauto].
  - right. exists (c :: a), b. split; [done|]. intros [H|H]; [done|tauto].
Qed.
Lemma parts_cases s : one_part s \/ (exists p l, two_parts s p l) \/ many_colons s.
Proof.
  destruct (colon_cases s) as [H|(a & b & -> & Ha)]; [by left|]. right.
  destruct (colon_cases b) as [H|(b1 & b2 & -> & Hb)].
  - left. exists a, b. by repeat split.
  - right. by exists a, b1, b2.
Qed.
Lemma free_app a b : colon_free (a ++ b) -> colon_free a /\ colon_free b.
Proof. unfold colon_free. intros H. split; intros Hin; apply H, in_app_iff; tauto. Qed.
Lemma first_colon a b a' b' : a ++ 58%N :: b = a' ++ 58%N :: b' -> colon_free a -> colon_free a' -> a = a' /\ b = b'.
Proof.
  unfold colon_free. revert a'. induction a as [|c a IH]; intros [|c' a'] H Ha Ha'; cbn in H.
  - by injection H as ->.
  - injection H as <- _. exfalso. apply Ha'. by left.
  - injection H as -> _. exfalso. apply Ha. by left.
  - injection H as -> H. destruct (IH a' H) as [-> ->]; cbn in *; tauto.
Qed.
Lemma two_parts_fun s p l p' l' : two_parts s p l -> two_parts s p' l' -> p = p' /\ l = l'.
Proof. intros (-> & H1 & H2) (H & H3 & H4). by apply first_colon in H. Qed.
Lemma one_not_two s p l : one_part s -> ~ two_parts s p l.
Proof. intros H (-> & _). apply H, in_app_iff. right. by left. Qed.
Lemma one_not_many s : one_part s -> ~ many_colons s.
Proof. intros H (a & b & c & ->). apply H, in_app_iff. right. by left. Qed.
Lemma two_not_many s p l : two_parts s p l -> ~ many_colons s.
Proof.
  intros (-> & Hp & Hl) (a & b & c & H).
  destruct (colon_cases a) as [Ha|(a1 & a2 & -> & Ha)].
  - apply first_colon in H as [-> ->]; [|done..]. apply Hl, in_app_iff. right. by left.
  - rewrite <- app_assoc in H. cbn in H. apply first_colon in H as [-> ->]; [|done..].
    apply Hl, in_app_iff. right. by left.
Qed.

Definition nfs_spec (s : str) (r : res Name) : Prop :=
  (exists n, r = Ok n /\ (one_part s /\ good_part s /\ n = mkName None None s
     \/ exists p l, two_parts s p l /\ good_part p /\ good_part l /\ n = mkName None (Some p) l))
  \/ r = Err Syntax /\ syntax_fault s
  \/ r = Err InvalidCharacter /\ character_fault s
  \/ r = Panic PSlice /\ wide_fault s.
Lemma good_ne x : good_part x -> is_nil x = false.
Proof. intros (c & t & -> & _). done. Qed.
Lemma nfs_one s : one_part s -> s <> [] ->
  name_from_str s = let? l := check_part s in name_new l None None.
Proof. intros H Hne. unfold name_from_str. rewrite split_on_free by done. by destruct s. Qed.
Lemma nfs_two s p l : two_parts s p l ->
  name_from_str s = let? l := check_part l in let? p := check_part p in name_new l (Some p) None.
Proof.
  intros (-> & Hp & Hl). unfold name_from_str. rewrite split_on_app, split_on_free by done. by destruct p.
Qed.
Lemma nfs_many s : many_colons s -> name_from_str s = Err Syntax.
Proof.
  intros (a & b & c & ->). unfold name_from_str.
  assert (is_nil (a ++ 58%N :: b ++ 58%N :: c) = false) as -> by by destruct a.
  assert (H : exists x y z w, split_on C_COLON (a ++ 58%N :: b ++ 58%N :: c) = x :: y :: z :: w).
  { assert (G : forall b, exists y z w, split_on C_COLON (b ++ 58%N :: c) = y :: z :: w).
    { intros b'. destruct (colon_cases b') as [Hb|(b1 & b2 & -> & Hb)].
      - rewrite split_on_app by done. destruct (split_on_cons_ne C_COLON c) as (w & ws & ->). eauto.
      - rewrite <- app_assoc. cbn. rewrite split_on_app by done.
        destruct (split_on_cons_ne C_COLON (b2 ++ 58%N :: c)) as (w & ws & ->). eauto. }
    destruct (colon_cases a) as [Ha|(a1 & a2 & -> & Ha)].
    - rewrite split_on_app by done. destruct (G b) as (y & z & w & ->). eauto.
    - rewrite <- app_assoc. cbn. rewrite split_on_app by done.
      destruct (G (a2 ++ 58%N :: b)) as (y & z & w & Hg). rewrite <- app_assoc in Hg. cbn in Hg. rewrite Hg. eauto. }
  destruct H as (x & y & z & w & ->). done.
Qed.
Lemma name_from_str_spec s : nfs_spec s (name_from_str s).
Proof.
  destruct (parts_cases s) as [H|[(p & l & H)|H]].
  - destruct (part_cases s) as [->|[Hg|[Hb|Hw]]].
    + right. left. split; [done|]. by left.
    + left. exists (mkName None None s). rewrite nfs_one by (done || (intros ->; by destruct Hg as (?&?&?&_))).
      rewrite check_part_good by done. cbn. unfold name_new. rewrite good_ne by done. split; [done|]. by left.
    + right. right. left. rewrite nfs_one by (done || (intros ->; by destruct Hb as (?&?&?&_))).
      rewrite check_part_bad by done. split; [done|]. by left.
    + right. right. right. rewrite nfs_one by (done || (intros ->; by destruct Hw as (?&?&?&_))).
      rewrite check_part_wide by done. split; [done|]. by left.
  - rewrite (nfs_two _ _ _ H). destruct (part_cases l) as [->|[Hg|[Hb|Hw]]].
    + right. left. split; [done|]. right. right. exists p, []. split; [done|]. by left.
    + rewrite (check_part_good l) by done. cbn [rbind]. destruct (part_cases p) as [->|[Hg'|[Hb'|Hw']]].
      * right. left. split; [done|]. right. right. exists [], l. split; [done|]. by right.
      * left. exists (mkName None (Some p) l). rewrite (check_part_good p) by done. cbn [rbind]. unfold name_new.
        rewrite !good_ne by done. split; [done|]. right. by exists p, l.
      * right. right. left. rewrite check_part_bad by done. split; [done|]. right. exists p, l. split; [done|]. by right.
      * right. right. right. rewrite check_part_wide by done. split; [done|]. right. exists p, l. split; [done|]. by right.
    + right. right. left. rewrite check_part_bad by done. split; [done|]. right. exists p, l. split; [done|]. by left.
    + right. right. right. rewrite check_part_wide by done. split; [done|]. right. exists p, l. split; [done|]. by left.
  - right. left. split; [by apply nfs_many|]. right. by left.
Qed.

(** The four outcomes exclude each other. *)
Lemma good_not_bad x : good_part x -> ~ bad_part x.
Proof. intros (c & t & -> & H1 & H2 & H3) (c' & t' & H & H4). injection H as <- <-. tauto. Qed.
Lemma good_not_wide x : good_part x -> ~ wide_part x.
Proof. intros (c & t & -> & H1 & H2 & H3) (c' & t' & H & H4 & H5). injection H as <- <-. lia. Qed.
Lemma bad_not_wide x : bad_part x -> ~ wide_part x.
Proof. intros (c & t & -> & H1) (c' & t' & H & H4 & H5). injection H as <- <-. destruct H1 as [H1|[H1 _]]; [tauto|lia]. Qed.
Lemma good_not_nil x : good_part x -> x <> []. Proof. intros (c & t & -> & _). done. Qed.
Lemma bad_not_nil x : bad_part x -> x <> []. Proof. intros (c & t & -> & _). done. Qed.
Lemma wide_not_nil x : wide_part x -> x <> []. Proof. intros (c & t & -> & _). done. Qed.
Definition accepted (s : str) : Prop :=
  one_part s /\ good_part s \/ exists p l, two_parts s p l /\ good_part p /\ good_part l.
Ltac parts_clash :=
  repeat match goal with
  | H : two_parts ?s _ _, H' : two_parts ?s _ _ |- _ =>
      destruct (two_parts_fun _ _ _ _ _ H H') as [? ?]; subst; clear H'
  end;
  intuition (subst; eauto; try congruence;
    try match goal with
    | H : one_part ?s, H' : two_parts ?s _ _ |- _ => destruct (one_not_two _ _ _ H H')
    | H : one_part ?s, H' : many_colons ?s |- _ => destruct (one_not_many _ H H')
    | H : two_parts ?s _ _, H' : many_colons ?s |- _ => destruct (two_not_many _ _ _ H H')
    | H : good_part ?s, H' : bad_part ?s |- _ => destruct (good_not_bad _ H H')
    | H : good_part ?s, H' : wide_part ?s |- _ => destruct (good_not_wide _ H H')
    | H : bad_part ?s, H' : wide_part ?s |- _ => destruct (bad_not_wide _ H H')
    | H : good_part [] |- _ => destruct (good_not_nil _ H eq_refl)
    | H : bad_part [] |- _ => destruct (bad_not_nil _ H eq_refl)
    | H : wide_part [] |- _ => destruct (wide_not_nil _ H eq_refl)
    | H : two_parts [] ?p _ |- _ => destruct H as [H _]; destruct p; discriminate
    end).
Lemma syntax_not_char s : syntax_fault s -> ~ character_fault s.
Proof.
  intros [->|[H|(p & l & H & H1)]] [[H2 H3]|(p' & l' & H2 & H3)]; parts_clash.
Qed.
Lemma syntax_not_wide s : syntax_fault s -> ~ wide_fault s.
Proof.
  intros [->|[H|(p & l & H & H1)]] [[H2 H3]|(p' & l' & H2 & H3)]; parts_clash.
Qed.
Lemma char_not_wide s : character_fault s -> ~ wide_fault s.
Proof.
  intros [[H H1]|(p & l & H & H1)] [[H2 H3]|(p' & l' & H2 & H3)]; parts_clash.
Qed.
Lemma accepted_not_syntax s : accepted s -> ~ syntax_fault s.
Proof.
  intros [[H H1]|(p & l & H & H1 & H4)] [->|[H2|(p' & l' & H2 & H3)]]; parts_clash.
Qed.
Lemma accepted_not_char s : accepted s -> ~ character_fault s.
Proof.
  intros [[H H1]|(p & l & H & H1 & H4)] [[H2 H3]|(p' & l' & H2 & H3)]; parts_clash.
Qed.
Lemma accepted_not_wide s : accepted s -> ~ wide_fault s.
Proof.
  intros [[H H1]|(p & l & H & H1 & H4)] [[H2 H3]|(p' & l' & H2 & H3)]; parts_clash.
Qed.

(** ** Printing *)
Lemma name_from_str_print s n : name_from_str s = Ok n -> name_to_string n = s /\ nm_ns n = None.
Proof.
  intros H. destruct (name_from_str_spec s) as [(n' & Hn & Hs)|[[Hn _]|[[Hn _]|[Hn _]]]]; try congruence.
  rewrite H in Hn. injection Hn as <-.
  destruct Hs as [(_ & _ & ->)|(p & l & (-> & _) & _ & _ & ->)]; done.
Qed.
Lemma name_new_ns_inv u q n : name_new_ns u q = Ok n ->
  exists m, name_from_str q = Ok m /\ n = mkName (Some u) (nm_prefix m) (nm_local m).
Proof.
  unfold name_new_ns. destruct (name_from_str q) as [m| | |]; cbn [rbind]; try done.
  unfold check_namespace_uri. repeat (destruct (if _ then _ else _) || idtac).
  destruct (is_nil u); [done|]. destruct (match nm_prefix m with Some p => _ | None => _ end); [done|].
  destruct (_ || _); [done|]. cbn. intros H. injection H as <-. eauto.
Qed.
Lemma name_new_ns_print u q n : name_new_ns u q = Ok n -> name_to_string n = q /\ nm_ns n = Some u.
Proof.
  intros (m & Hm & ->)%name_new_ns_inv. split; [|done]. apply name_from_str_print in Hm as [<- _]. done.
Qed.

(** ** Reserved namespaces *)
Definition bad_uri (uri part : str) : bool :=
  (str_eqb part XML_NS_ATTRIBUTE && negb (str_eqb uri XML_NS_URI))
  || (str_eqb part XMLNS_NS_ATTRIBUTE && negb (str_eqb uri XMLNS_NS_URI)).
Lemma check_uri_unfold u p l : check_namespace_uri u p l =
  if is_nil u then Err Syntax
  else if match p with Some x => bad_uri u x | None => false end then Err Namespace
  else if bad_uri u l then Err Namespace else Ok u.
Proof. done. Qed.
Lemma check_uri_spec u p l :
  let n := mkName (Some u) p l in
  (u <> [] /\ reserved_ok u n -> check_namespace_uri u p l = Ok u) /\
  (u = [] -> check_namespace_uri u p l = Err Syntax) /\
  (u <> [] -> ~ reserved_ok u n -> check_namespace_uri u p l = Err Namespace).
Proof.
  cbn. rewrite check_uri_unfold. set (bad := bad_uri u).
  assert (Hbad : forall w, bad w = false <-> (w = lit "xml" -> u = xml_uri) /\ (w = lit "xmlns" -> u = xmlns_uri)).
  { intros w. unfold bad, bad_uri, XML_NS_ATTRIBUTE, XMLNS_NS_ATTRIBUTE, XML_NS_URI, XMLNS_NS_URI.
    rewrite orb_false_iff, !andb_false_iff, !negb_false_iff, !str_eqb_true, !str_eqb_false. unfold xml_uri, xmlns_uri.
    destruct (decide (w = lit "xml")), (decide (w = lit "xmlns")); subst; tauto. }
  assert (Hres : reserved_ok u (mkName (Some u) p l) <->
    match p with Some x => bad x | None => false end = false /\ bad l = false).
  { unfold reserved_ok, uses. cbn. rewrite Hbad. destruct p as [x|].
    - rewrite Hbad. split.
      + intros [H1 H2]. repeat split; intros ->; auto.
      + intros [[H1 H2] [H3 H4]]. split; intros [H|H]; try (injection H as ->); auto.
    - split.
      + intros [H1 H2]. repeat split; intros ->; auto.
      + intros [_ [H3 H4]]. split; intros [H|H]; try done; auto. }
  split; [|split].
  - intros [Hne Hr]. apply Hres in Hr as [-> ->]. by destruct u.
  - by intros ->.
  - intros Hne Hr. destruct u as [|c u]; [done|]. cbn [is_nil]. rewrite Hres in Hr.
    destruct (match p with Some x => bad x | None => false end); [done|]. destruct (bad l); [done|]. by destruct Hr.
Qed.

Lemma classic_reserved u m : reserved_ok u m \/ ~ reserved_ok u m.
Proof.
  unfold reserved_ok, uses. destruct (decide (u = xml_uri)), (decide (u = xmlns_uri));
    destruct (decide (nm_prefix m = Some (lit "xml"))), (decide (nm_prefix m = Some (lit "xmlns")));
    destruct (decide (nm_local m = lit "xml")), (decide (nm_local m = lit "xmlns")); tauto.
Qed.

(** ** Options *)
Lemma flag_bit k o : negb (N.land o (2 ^ k) =? 0)%N = N.testbit o k.
Proof.
  assert (H : N.land o (2 ^ k) = if N.testbit o k then (2 ^ k)%N else 0%N).
  { apply N.bits_inj. intros j. rewrite N.land_spec, N.pow2_bits_eqb.
    destruct (N.eqb_spec k j) as [->|Hk].
    - destruct (N.testbit o j) eqn:Hj; cbn [andb]; [by rewrite N.pow2_bits_true|done].
    - rewrite andb_false_r. destruct (N.testbit o k); [by rewrite N.pow2_bits_false|done]. }
  rewrite H. destruct (N.testbit o k); [|done]. apply negb_true_iff, N.eqb_neq, N.pow_nonzero. lia.
Qed.
Lemma flag0 o : has_assume_ids o = N.testbit o 0. Proof. apply (flag_bit 0). Qed.
Lemma flag1 o : has_parse_entities o = N.testbit o 1. Proof. apply (flag_bit 1). Qed.
Lemma flag2 o : has_add_namespaces o = N.testbit o 2. Proof. apply (flag_bit 2). Qed.

(** ** Declarations *)
Lemma split_on_forallb (p : N -> bool) sep s : p sep = false ->
  forallb (forallb p) (split_on sep s) = forallb (fun c => p c || (c =? sep)%N) s.
Proof.
  intros Hs. induction s as [|c s IH]; cbn; [done|]. destruct (N.eqb_spec c sep) as [->|Hc].
  - rewrite orb_true_r. cbn. exact IH.
  - rewrite orb_false_r, <- IH. destruct (split_on_cons_ne sep s) as (w & ws & ->). cbn. by rewrite andb_assoc.
Qed.
Lemma is_encoding_spec e : (encoding_name e -> is_encoding e = Ok true) /\ (~ encoding_name e -> is_encoding e = Ok false).
Proof.
  destruct e as [|c t]; cbn [is_encoding].
  { split; [|done]. intros (? & ? & ? & _). done. }
  assert (Hl : is_encoding_start_char c = true <-> ascii_letter c).
  { unfold is_encoding_start_char, is_ascii_uppercase, is_ascii_lowercase, ascii_letter.
    rewrite orb_true_iff, !in_range_true. tauto. }
  destruct (is_encoding_start_char c) eqn:Hc.
  - assert (Hc' : ascii_letter c) by tauto. unfold split_at_res. rewrite split_at_one.
    destruct (N.ltb_spec c 128) as [Hlt|Hge]; [|unfold ascii_letter in Hc'; lia]. cbn [rbind snd].
    rewrite split_on_forallb by done.
    assert (Hf : forallb (fun c => is_encoding_rest_char c || (c =? 45)%N) t = true <->
      Forall (fun x => ascii_letter x \/ ascii_digit x \/ x = 46%N \/ x = 95%N \/ x = 45%N) t).
    { rewrite forallb_forall, List.Forall_forall.
      assert (G : forall x, is_encoding_rest_char x || (x =? 45)%N = true <->
        ascii_letter x \/ ascii_digit x \/ x = 46%N \/ x = 95%N \/ x = 45%N).
      { intros x. unfold is_encoding_rest_char, is_ascii_uppercase, is_ascii_lowercase, is_ascii_digit, ascii_letter, ascii_digit.
        rewrite !orb_true_iff, !in_range_true, !N.eqb_eq. tauto. }
      split; intros H x Hx; apply G; auto. }
    split.
    + intros (c' & t' & He & _ & Ht). injection He as <- <-. by rewrite (proj2 Hf Ht).
    + intros Hn. destruct (forallb (fun c => is_encoding_rest_char c || (c =? 45)%N) t) eqn:Hb; [|done].
      exfalso. apply Hn. exists c, t. tauto.
  - split; [|done]. intros (c' & t' & He & Hx & _). injection He as <- <-. rewrite <- Hl in Hx. congruence.
Qed.

Lemma to_quote_inj (a b r1 r2 : str) : ~ In 34%N a -> ~ In 34%N b -> a ++ 34%N :: r1 = b ++ 34%N :: r2 -> a = b /\ r1 = r2.
Proof.
  revert b. induction a as [|x a IH]; intros [|y b] Ha Hb H; cbn in *.
  - by injection H as ->.
  - injection H as <- _. tauto.
  - injection H as -> _. tauto.
  - injection H as -> H. destruct (IH b) as [-> ->]; tauto.
Qed.
Lemma encoding_no_quote e : encoding_name e -> ~ In 34%N e.
Proof.
  intros (c & t & -> & Hc & Ht) [H|H]; [subst; unfold ascii_letter in Hc; lia|].
  rewrite List.Forall_forall in Ht. apply Ht in H. unfold ascii_letter, ascii_digit in H. lia.
Qed.
Definition enc_text (e : option str) : str := match e with Some e => lit " encoding=""" ++ e ++ [C_QUOT] | None => [] end.
Definition sa_text (s : option bool) : str :=
  match s with Some b => lit " standalone=""" ++ (if b then lit "yes" else lit "no") ++ [C_QUOT] | None => [] end ++ lit "?>".
Lemma sa_text_inj a b : sa_text a = sa_text b -> a = b.
Proof. destruct a as [[]|], b as [[]|]; intros H; try done; vm_compute in H; discriminate. Qed.
Lemma enc_not_sa e s r : lit " encoding=""" ++ e ++ r = sa_text s -> False.
Proof. destruct s as [[]|]; intros H; apply (f_equal (fun l => l !! 1%nat)) in H; vm_compute in H; discriminate. Qed.
Lemma decl_inj d1 d2 :
  match xd_encoding d1 with Some e => encoding_name e | None => True end ->
  match xd_encoding d2 with Some e => encoding_name e | None => True end ->
  xml_decl_to_string d1 = xml_decl_to_string d2 -> d1 = d2.
Proof.
  destruct d1 as [v1 e1 s1], d2 as [v2 e2 s2]. cbn [xd_encoding]. unfold xml_decl_to_string. cbn [xd_version xd_encoding xd_standalone].
  intros H1 H2 H. apply app_inv_head in H.
  fold (enc_text e1) (enc_text e2) (sa_text s1) (sa_text s2) in H.
  assert (Hv : v1 = v2 /\ enc_text e1 ++ sa_text s1 = enc_text e2 ++ sa_text s2).
  { destruct v1, v2; cbn [version_to_string] in H; [|exfalso|exfalso|];
      try (apply (f_equal (fun l => l !! 2%nat)) in H; vm_compute in H; discriminate);
      split; try done; by do 2 (apply app_inv_head in H). }
  destruct Hv as [-> Hr]. clear H.
  destruct e1 as [e1|], e2 as [e2|]; cbn [enc_text] in Hr.
  - rewrite <- !app_assoc in Hr. apply app_inv_head in Hr. cbn [app] in Hr.
    apply to_quote_inj in Hr as [-> Hr]; [|by apply encoding_no_quote..]. by rewrite (sa_text_inj _ _ Hr).
  - exfalso. rewrite <- !app_assoc in Hr. cbn [app] in Hr. by eapply enc_not_sa.
  - exfalso. rewrite <- !app_assoc in Hr. cbn [app] in Hr. symmetry in Hr. by eapply enc_not_sa.
  - cbn [app] in Hr. by rewrite (sa_text_inj _ _ Hr).
Qed.
Lemma wide_fault_char s : wide_fault s -> exists c, In c s /\ (128 <= c)%N.
Proof.
  assert (G : forall x, wide_part x -> exists c, In c x /\ (128 <= c)%N).
  { intros x (c & t & -> & _ & Hc). exists c. split; [by left|done]. }
  intros [[_ H]|(p & l & (-> & _) & [H|[_ H]])]; apply G in H as (c & Hin & Hc); exists c; split; try done.
  - apply in_app_iff. right. by right.
  - apply in_app_iff. by left.
Qed.
Lemma wide_not_xml s : wide_fault s -> str_eqb (to_ascii_lowercase s) (lit "xml") = false.
Proof.
  intros (c & Hin & Hc)%wide_fault_char. apply str_eqb_false. intros H.
  assert (Hl : In (to_lower c) (to_ascii_lowercase s)) by (by apply in_map).
  assert (Heq : to_lower c = c).
  { unfold to_lower, is_ascii_uppercase. destruct (in_range 65 90 c) eqn:Hr; [|done]. apply in_range_true in Hr. lia. }
  rewrite Heq, H in Hl. vm_compute in Hl. intuition (subst; lia).
Qed.
