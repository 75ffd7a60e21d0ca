(** * C58-C61: character classes, tokens, xml:space, numeric references *)
From Coq Require Import Lia.
From Verif Require Import SpecChars ProofText ProofName ProofAttr History.

(** ** C58 *)
(** The code's upper bound is 10FFF where the standards have 10FFFF; otherwise the classes are the standards'. *)
Theorem C58_char_10 : forall c, is_xml_10_char c = true <-> char_10 c /\ (c <= 0x10FFF)%N.
Proof. intros c. unfold is_xml_10_char, char_10, rng. rewrite !orb_true_iff, !in_range_true, !N.eqb_eq. lia. Qed.
Print Assumptions C58_char_10.
Theorem C58_char_11 : forall c, is_xml_11_char c = true <-> char_11 c /\ (c <= 0x10FFF)%N.
Proof. intros c. unfold is_xml_11_char, char_11, rng. rewrite !orb_true_iff, !in_range_true. lia. Qed.
Print Assumptions C58_char_11.
Theorem C58_all_chars_refuted : exists c, scalar c /\ char_10 c /\ char_11 c /\ is_xml_10_char c = false /\ is_xml_11_char c = false.
Proof. exists 0x1F600%N. split; [split; [lia|lia]|]. unfold char_10, char_11, rng. split; [lia|]. split; [lia|]. by vm_compute. Qed.
Print Assumptions C58_all_chars_refuted.
Theorem C58_restricted_11 : forall c, is_xml_11_restricted_char c = true <-> restricted_11 c.
Proof. intros c. unfold is_xml_11_restricted_char, restricted_11, rng. rewrite !orb_true_iff, !in_range_true. lia. Qed.
Print Assumptions C58_restricted_11.
(** The characters called restricted for XML 1.0 are those that escaping replaces. *)
Theorem C58_restricted_10 : forall c, is_xml_10_restricted_char c = true <-> special c.
Proof. intros c. unfold is_xml_10_restricted_char, special, C_AMP, C_APOS, C_GT, C_LT, C_QUOT. rewrite !orb_true_iff, !N.eqb_eq. tauto. Qed.
Print Assumptions C58_restricted_10.
Theorem C58_escape_leaves_none : forall s c, In c (escape s) -> is_xml_10_restricted_char c = true -> c = 38%N.
Proof.
  intros s c Hin Hr. apply C58_restricted_10 in Hr. destruct (escaped_markup_free _ _ (escape_escaped s)) as [H _]. specialize (H c Hin). unfold special in Hr. lia.
Qed.
Print Assumptions C58_escape_leaves_none.
Theorem C58_space : forall c, is_xml_space c = true <-> xml_space c.
Proof. intros c. unfold is_xml_space, xml_space. rewrite !orb_true_iff, !N.eqb_eq. lia. Qed.
Print Assumptions C58_space.
Theorem C58_name_chars : forall c, (is_xml_name_start_char c = true <-> name_start_char c) /\ (is_xml_name_char c = true <-> name_char c) /\
  (name_char c -> scalar c -> (c <= 0x10FFF)%N -> is_xml_11_char c = true).
Proof.
  intros c. split; [apply name_start_spec|]. split; [apply name_char_spec|]. intros Hn _ Hle. apply C58_char_11. split; [|done].
  unfold name_char, name_start_char, char_11, rng, ascii_digit in *. lia.
Qed.
Print Assumptions C58_name_chars.
Example C58_example : is_xml_10_char 0xFFFD = true /\ is_xml_10_char 0xFFFE = false /\ is_xml_10_char 0x10FFF = true /\ is_xml_10_char 0x11000 = false /\
  is_xml_11_char 1 = true /\ is_xml_10_char 1 = false /\ is_xml_11_restricted_char 0x85 = false /\ is_xml_11_restricted_char 0x86 = true /\ is_xml_space 32 = true.
Proof. by vm_compute. Qed.

(** ** C59 *)
Lemma split_words s : words s (split_on C_SPACE s).
Proof.
  induction s as [|c s IH]; cbn; [apply words_one; intros []|]. destruct (N.eqb_spec c C_SPACE) as [->|Hc]; [apply (words_more []); [intros []|done]|].
  destruct IH as [w Hw|w s ws Hw H].
  - apply words_one. intros [->|Hin]; [done|]. by apply Hw.
  - apply (words_more (c :: w)); [|done]. intros [->|Hin]; [done|]. by apply Hw.
Qed.
Lemma words_fun s l1 l2 : words s l1 -> words s l2 -> l1 = l2.
Proof.
  assert (G : forall a b s t, ~ In 32%N a -> ~ In 32%N b -> a ++ 32%N :: s = b ++ 32%N :: t -> a = b /\ s = t).
  { clear. induction a as [|x a IH]; intros [|y b] s t Ha Hb H; cbn in *; [by injection H|injection H as <- _; destruct Hb; by left|injection H as -> _; destruct Ha; by left|].
    injection H as -> H. destruct (IH b s t) as [-> ->]; [tauto|tauto|done|done]. }
  intros H. revert l2. induction H as [w Hw|w s ws Hw H IH]; intros l2 H2; inversion H2 as [w' Hw'|w' s' ws' Hw' H']; subst.
  - done.
  - destruct Hw. apply in_app_iff. right. by left.
  - destruct Hw'. apply in_app_iff. right. by left.
  - match goal with HH : _ ++ _ = _ ++ _ |- _ => destruct (G _ _ _ _ Hw' Hw HH) as [-> ->] end. by rewrite (IH _ H').
Qed.
Lemma space_not_name_char : ~ name_char 32%N.
Proof. unfold name_char, name_start_char, rng, ascii_digit. lia. Qed.
Lemma listed_words (P : str -> Prop) s ws : (forall w, P w -> ~ In 32%N w) -> words s ws -> (listed P s <-> Forall P ws).
Proof.
  intros HP Hw. split.
  - intros H. revert ws Hw. induction H as [w Hw|w s Hw H IH]; intros ws Hws.
    + rewrite (words_fun _ _ _ Hws (words_one w (HP w Hw))). by repeat constructor.
    + rewrite (words_fun _ _ _ Hws (words_more w s _ (HP w Hw) (split_words s))). constructor; [done|]. apply IH, split_words.
  - induction Hw as [w Hw|w s ws Hw H IH]; intros HF; inversion HF; subst; [by apply listed_one|]. apply listed_more; auto.
Qed.
Lemma token_no_space w : a_token w -> ~ In 32%N w.
Proof. intros [_ H] Hin. rewrite List.Forall_forall in H. by apply space_not_name_char, H. Qed.
Lemma name_no_space w : a_name w -> ~ In 32%N w.
Proof.
  intros (c & t & -> & Hc & Ht) [->|Hin]; [unfold name_start_char, rng in Hc; lia|]. rewrite List.Forall_forall in Ht. by apply space_not_name_char, Ht.
Qed.
Theorem C59_nmtoken : forall s, is_xml_nmtoken s = true <-> a_token s.
Proof. intros [|c s]; [split; [done|by intros [? _]]|]. unfold is_xml_nmtoken, a_token. rewrite forallb_name. split; [done|by intros [_ ?]]. Qed.
Print Assumptions C59_nmtoken.
Theorem C59_nmtokens : forall s, is_xml_nmtokens s = true <-> listed a_token s.
Proof.
  intros s. rewrite (listed_words a_token s _ token_no_space (split_words s)). unfold is_xml_nmtokens. destruct s as [|c s].
  - cbn. split; [done|]. intros H. inversion H as [|x l [Hx _]]; by subst.
  - rewrite forallb_forall, List.Forall_forall. split; intros H x Hx; apply C59_nmtoken; auto.
Qed.
Print Assumptions C59_nmtokens.
(** One name: the answer is right unless the first character is a name start character of more than one byte, which panics. *)
Lemma is_name_cases w : (ascii_first w /\ a_name w /\ is_xml_name w = Ok true) \/ (~ a_name w /\ is_xml_name w = Ok false) \/
  ((exists c t, w = c :: t /\ name_start_char c /\ (128 <= c)%N) /\ is_xml_name w = Panic PSlice).
Proof.
  destruct w as [|c t]; [right; left; split; [by intros (? & ? & ? & _)|done]|]. unfold is_xml_name.
  destruct (is_xml_name_start_char c) eqn:Hc.
  - apply name_start_spec in Hc. destruct (N.lt_ge_cases c 128) as [Hlt|Hge].
    + assert (Hs : split_at_res (c :: t) 1 = Ok ([c], t)).
      { unfold split_at_res. cbn. unfold utf8_len. rewrite (proj2 (N.ltb_lt c 128) Hlt). cbn. destruct t; done. }
      rewrite Hs. cbn [rbind snd]. destruct (forallb is_xml_name_char t) eqn:Ht.
      * left. apply forallb_name in Ht. split; [intros c' t' [= <- _]; done|]. split; [by exists c, t|done].
      * right; left. split; [|done]. intros (c' & t' & [= <- <-] & _ & H). apply forallb_name in H. congruence.
    + right; right. split; [by exists c, t|]. unfold split_at_res. cbn.
      assert (Hu : (1 <? utf8_len c)%N = true) by (unfold utf8_len; rewrite (proj2 (N.ltb_ge c 128)) by lia; by destruct (c <? 2048)%N, (c <? 65536)%N). by rewrite Hu.
  - right; left. split; [|done]. intros (c' & t' & [= <- <-] & H & _). apply name_start_spec in H. congruence.
Qed.
Theorem C59_name : forall w, ascii_first w -> (is_xml_name w = Ok true <-> a_name w) /\ (is_xml_name w = Ok false <-> ~ a_name w).
Proof.
  intros w Ha. destruct (is_name_cases w) as [(_ & Hn & ->)|[(Hn & ->)|((c & t & -> & _ & Hc) & _)]].
  - split; split; intros; try done; congruence.
  - split; split; intros; try done; congruence.
  - specialize (Ha c t eq_refl). lia.
Qed.
Print Assumptions C59_name.
(** A list of names: reading stops at the first word that is not a name, or panics at the first one starting with a multi-byte
    name start character. *)
Theorem C59_names : forall s ws, words s ws -> s <> [] ->
  (is_xml_names s = Ok true <-> Forall (fun w => a_name w /\ ascii_first w) ws) /\
  (is_xml_names s = Ok false <-> exists l w r, ws = l ++ w :: r /\ Forall (fun w => a_name w /\ ascii_first w) l /\ ~ a_name w /\ is_xml_name w = Ok false) /\
  ((exists p, is_xml_names s = Panic p) <-> exists l c t r, ws = l ++ (c :: t) :: r /\ Forall (fun w => a_name w /\ ascii_first w) l /\ name_start_char c /\ (128 <= c)%N).
Proof.
  intros s ws Hw Hne. rewrite (words_fun _ _ _ Hw (split_words s)). assert (Hs : is_xml_names s = all_res is_xml_name (split_on C_SPACE s)) by (by destruct s). rewrite Hs. clear.
  assert (G : forall ws, (all_res is_xml_name ws = Ok true /\ Forall (fun w => a_name w /\ ascii_first w) ws) \/
    (all_res is_xml_name ws = Ok false /\ exists l w r, ws = l ++ w :: r /\ Forall (fun w => a_name w /\ ascii_first w) l /\ ~ a_name w /\ is_xml_name w = Ok false) \/
    (all_res is_xml_name ws = Panic PSlice /\ exists l c t r, ws = l ++ (c :: t) :: r /\ Forall (fun w => a_name w /\ ascii_first w) l /\ name_start_char c /\ (128 <= c)%N)).
  { clear. induction ws as [|w ws IH]; [left; split; [done|constructor]|]. cbn. destruct (is_name_cases w) as [(Ha & Hn & He)|[(Hn & He)|((c & t & -> & Hc & Hge) & He)]]; rewrite He; cbn [rbind].
    - destruct IH as [(-> & IH)|[(-> & l & x & r & -> & H1 & H2)|(-> & l & c & t & r & -> & H1 & H2)]].
      + left. split; [done|]. by constructor.
      + right; left. split; [done|]. exists (w :: l), x, r. split; [done|]. split; [by constructor|done].
      + right; right. split; [done|]. exists (w :: l), c, t, r. split; [done|]. split; [by constructor|done].
    - right; left. split; [done|]. exists [], w, ws. done.
    - right; right. split; [done|]. exists [], c, t, ws. done. }
  assert (Hx : forall l w r, Forall (fun w => a_name w /\ ascii_first w) (l ++ w :: r) -> a_name w /\ ascii_first w) by (intros l w r H; apply Forall_app in H as [_ H]; by inversion H).
  assert (D : forall (l1 : list str) w1 r1 l2 w2 r2, l1 ++ w1 :: r1 = l2 ++ w2 :: r2 -> Forall (fun w => a_name w /\ ascii_first w) l1 -> Forall (fun w => a_name w /\ ascii_first w) l2 ->
    ~ (a_name w1 /\ ascii_first w1) -> ~ (a_name w2 /\ ascii_first w2) -> w1 = w2).
  { clear. induction l1 as [|x l1 IH]; intros w1 r1 [|y l2] w2 r2 H H1 H2 Hn1 Hn2; cbn in H.
    - congruence.
    - injection H as -> _. inversion H2; subst. tauto.
    - injection H as -> _. inversion H1; subst. tauto.
    - injection H as -> H. inversion H1; inversion H2; subst. eapply IH; eauto. }
  assert (Hbig : forall c t, (128 <= c)%N -> ~ ascii_first (c :: t)) by (intros c t Hge H; specialize (H c t eq_refl); lia).
  destruct (G (split_on C_SPACE s)) as [(-> & H)|[(-> & l & w & r & Heq & Hl & Hn & Hf)|(-> & l & c & t & r & Heq & Hl & Hc & Hge)]].
  - split; [done|]. split; split; try done.
    + intros (l & w & r & Heq & _ & Hn & _). rewrite Heq in H. by destruct Hn, (Hx _ _ _ H).
    + by intros [p Hp].
    + intros (l & c & t & r & Heq & _ & _ & Hge). rewrite Heq in H. destruct (Hx _ _ _ H) as [_ Ha]. by destruct (Hbig c t Hge).
  - split; [|split]; split; try done.
    + intros H. rewrite Heq in H. by destruct Hn, (Hx _ _ _ H).
    + intros _. by exists l, w, r.
    + by intros [p Hp].
    + intros (l' & c & t & r' & Heq' & Hl' & Hc & Hge). exfalso. rewrite Heq in Heq'. assert (w = c :: t) as ->.
      { eapply D; eauto; [by intros [? _]|intros [_ Ha]; by destruct (Hbig c t Hge)]. }
      destruct (is_name_cases (c :: t)) as [(Ha & _)|[(_ & Hf')|(_ & Hf')]]; [by destruct (Hbig c t Hge)| |congruence].
      unfold is_xml_name in Hf'. rewrite (proj2 (name_start_spec c) Hc) in Hf'. unfold split_at_res in Hf'. cbn in Hf'.
      assert (Hu : (1 <? utf8_len c)%N = true) by (unfold utf8_len; rewrite (proj2 (N.ltb_ge c 128)) by lia; by destruct (c <? 2048)%N, (c <? 65536)%N). by rewrite Hu in Hf'.
  - split; [|split]; split; try done.
    + intros H. rewrite Heq in H. destruct (Hx _ _ _ H) as [_ Ha]. by destruct (Hbig c t Hge).
    + intros (l' & w & r' & Heq' & Hl' & Hn & Hf). exfalso. rewrite Heq in Heq'. assert (w = c :: t) as ->.
      { symmetry. eapply D; eauto; [intros [_ Ha]; by destruct (Hbig c t Hge)|by intros [? _]]. }
      unfold is_xml_name in Hf. rewrite (proj2 (name_start_spec c) Hc) in Hf. unfold split_at_res in Hf. cbn in Hf.
      assert (Hu : (1 <? utf8_len c)%N = true) by (unfold utf8_len; rewrite (proj2 (N.ltb_ge c 128)) by lia; by destruct (c <? 2048)%N, (c <? 65536)%N). by rewrite Hu in Hf.
    + intros _. by exists l, c, t, r.
    + intros _. by exists PSlice.
Qed.
Print Assumptions C59_names.
(** For names starting with ASCII characters this is production 6. *)
Theorem C59_names_grammar : forall s ws, words s ws -> Forall ascii_first ws -> (is_xml_names s = Ok true <-> listed a_name s).
Proof.
  intros s ws Hw Ha. rewrite (listed_words a_name s ws name_no_space Hw). destruct s as [|c s].
  - rewrite (words_fun _ _ _ Hw (split_words [])). cbn. split; [done|]. intros H. inversion H as [|x l (c & t & ? & _)]; by subst.
  - destruct (C59_names (c :: s) ws Hw) as [-> _]; [done|]. rewrite !List.Forall_forall in *. split; [intros H w Hin; by apply H|]. intros H w Hin. split; auto.
Qed.
Print Assumptions C59_names_grammar.
Theorem C59_names_refuted : exists s, listed a_name s /\ is_xml_names s = Panic PSlice.
Proof.
  exists (lit "a " ++ [233%N]). split; [|by vm_compute]. apply (listed_more _ (lit "a") [233%N]); [|apply listed_one].
  - exists 97%N, []. split; [done|]. split; [unfold name_start_char, rng; lia|constructor].
  - exists 233%N, []. split; [done|]. split; [unfold name_start_char, rng; lia|constructor].
Qed.
Print Assumptions C59_names_refuted.
Example C59_example : is_xml_nmtokens (lit "1a -b .c") = true /\ is_xml_nmtokens (lit "a  b") = false /\ is_xml_nmtokens (lit "a ") = false /\
  is_xml_names (lit "a b-1 c:d") = Ok true /\ is_xml_names (lit "a 1b") = Ok false /\ is_xml_names [] = Ok false /\ words (lit "a 1b") [lit "a"; lit "1b"].
Proof.
  do 6 (split; [by vm_compute|]). apply (words_more (lit "a") (lit "1b")); [|apply words_one]; vm_compute; intuition discriminate.
Qed.

(** ** C60 *)
Theorem C60_space_handling : forall s x, space_handling_from_str s = Some x <-> s = space_handling_value x.
Proof.
  intros s x. unfold space_handling_from_str, str_eqb. destruct (bool_decide_reflect (s = XML_NS_ATTR_SPACE_DEFAULT)) as [->|H1].
  - destruct x; split; try done.
  - destruct (bool_decide_reflect (s = XML_NS_ATTR_SPACE_PRESERVE)) as [->|H2]; destruct x; split; try done.
Qed.
Print Assumptions C60_space_handling.
Theorem C60_values : space_handling_value SHDefault = lit "default" /\ space_handling_value SHPreserve = lit "preserve" /\
  forall x, space_handling_to_string x = lit "xml:space=" ++ [34%N] ++ space_handling_value x ++ [34%N].
Proof. split; [done|]. split; [done|]. by intros []. Qed.
Print Assumptions C60_values.
(** So the printed form is not one that is read. *)
Theorem C60_printing_refuted : forall x, space_handling_from_str (space_handling_to_string x) = None.
Proof. by intros []. Qed.
Print Assumptions C60_printing_refuted.
Example C60_example : space_handling_from_str (lit "preserve") = Some SHPreserve /\ space_handling_from_str (lit "Preserve") = None.
Proof. by vm_compute. Qed.

(** ** C61 *)
Lemma digit_value_dec d : (d < 10)%N -> digit_value (48 + d) = d /\ ascii_digit (48 + d).
Proof. intros H. unfold digit_value, ascii_digit. rewrite (proj2 (N.leb_le _ _)) by lia. lia. Qed.
Lemma digit_value_hex d : (d < 16)%N -> digit_value (hex_digit d) = d /\ hex_upper (hex_digit d) /\ (hex_digit d = 48%N -> d = 0%N).
Proof.
  intros H. unfold digit_value, hex_digit, hex_upper, ascii_digit. destruct (N.ltb_spec d 10).
  - rewrite (proj2 (N.leb_le _ _)) by lia. lia.
  - rewrite (proj2 (N.leb_gt _ 57)) by lia. rewrite (proj2 (N.leb_le _ 90)) by lia. lia.
Qed.
Lemma number_snoc r ds d : number r (ds ++ [d]) = (number r ds * r + digit_value d)%N.
Proof. unfold number. by rewrite fold_left_app. Qed.
(** Repeated division, for any numeral system. *)
Lemma digits_numeral r dig (good : N -> Prop) (digs : nat -> N -> str -> str) :
  (1 < r)%N -> (forall d, (d < r)%N -> digit_value (dig d) = d /\ good (dig d) /\ (dig d = 48%N -> d = 0%N)) ->
  (forall k n acc, digs (S k) n acc = let d := dig (n mod r)%N in let q := (n / r)%N in if (q =? 0)%N then d :: acc else digs k q (d :: acc)) ->
  forall k n acc, (n < 2 ^ N.of_nat k)%N -> exists ds, digs (S k) n acc = ds ++ acc /\ number r ds = n /\ ds <> [] /\ (forall t, ds = 48%N :: t -> t = []) /\ Forall good ds.
Proof.
  intros Hr Hdig Heq. induction k as [|k IH]; intros n acc Hn.
  - assert (n = 0%N) as -> by (cbn in Hn; lia). rewrite Heq. cbn zeta. rewrite N.div_0_l, N.mod_0_l by lia. cbn [N.eqb].
    destruct (Hdig 0%N ltac:(lia)) as (H1 & H2 & _). exists [dig 0%N]. split; [done|]. split; [unfold number; cbn; rewrite H1; lia|]. split; [done|]. split; [by intros t [= _ <-]|by repeat constructor].
  - rewrite Heq. cbn zeta. pose proof (N.mod_lt n r ltac:(lia)) as Hm. destruct (Hdig _ Hm) as (H1 & H2 & H3).
    destruct (N.eqb_spec (n / r) 0) as [Hq|Hq].
    + exists [dig (n mod r)%N]. split; [done|]. pose proof (N.div_mod n r ltac:(lia)) as Hdm. rewrite Hq in Hdm.
      split; [unfold number; cbn [fold_left]; rewrite H1; lia|]. split; [done|]. split; [by intros t [= _ <-]|by repeat constructor].
    + destruct (IH (n / r)%N (dig (n mod r)%N :: acc)) as (ds & Hds & Hnum & Hne & Hz & Hg).
      { apply N.div_lt_upper_bound; [lia|]. rewrite Nat2N.inj_succ, N.pow_succ_r' in Hn. nia. }
      exists (ds ++ [dig (n mod r)%N]). split; [rewrite Hds, <- app_assoc; done|]. split.
      { rewrite number_snoc, Hnum, H1. pose proof (N.div_mod n r ltac:(lia)). lia. }
      split; [by destruct ds|]. split; [|apply Forall_app; split; [done|by repeat constructor]].
      intros t Ht. destruct ds as [|x ds]; [done|]. injection Ht as -> Ht. rewrite (Hz ds eq_refl) in Hnum. destruct Hq. rewrite <- Hnum. done.
Qed.
Lemma size_bound n : (n < 2 ^ N.of_nat (N.to_nat (N.size n)))%N.
Proof. rewrite N2Nat.id. destruct n; [done|]. apply N.size_gt. Qed.
Lemma dec_numeral n : numeral 10 n (dec_of_N n).
Proof.
  destruct (digits_numeral 10 (fun d => 48 + d)%N ascii_digit dec_digits ltac:(lia)) with (k := N.to_nat (N.size n)) (n := n) (acc := @nil N) as (ds & Hds & H1 & H2 & H3 & H4).
  - intros d Hd. destruct (digit_value_dec d Hd). split; [done|]. split; [done|lia].
  - done.
  - apply size_bound.
  - unfold dec_of_N. rewrite Hds, app_nil_r. by split.
Qed.
Lemma hex_numeral n : numeral 16 n (hex_of_N n).
Proof.
  destruct (digits_numeral 16 hex_digit hex_upper hex_digits ltac:(lia)) with (k := N.to_nat (N.size n)) (n := n) (acc := @nil N) as (ds & Hds & H1 & H2 & H3 & H4).
  - apply digit_value_hex.
  - done.
  - apply size_bound.
  - unfold hex_of_N. rewrite Hds, app_nil_r. by split.
Qed.
(** The two writers of references write the numeral of the character, cut to 16 bits. *)
Theorem C61_written : forall c, exists ds hs, numeral 10 (c mod 65536) ds /\ numeral 16 (c mod 65536) hs /\
  to_entity c = lit "&#" ++ ds ++ lit ";" /\ to_entity_hex c = lit "&#x" ++ hs ++ lit ";".
Proof. intros c. exists (dec_of_N (c mod 65536)), (hex_of_N (c mod 65536)). split; [apply dec_numeral|]. split; [apply hex_numeral|]. done. Qed.
Print Assumptions C61_written.
(** So reading them back gives the character up to FFFF; the reader takes any numeral of the right kind. *)
Theorem C61_read_back : forall c, scalar c -> (c < 0x10000)%N -> char_from_entity (to_entity c) = Ok [c] /\ char_from_entity (to_entity_hex c) = Ok [c].
Proof.
  intros c Hs Hc. unfold to_entity, to_entity_hex. rewrite N.mod_small by done. destruct (dec_numeral c) as (D1 & D2 & _ & D4). destruct (hex_numeral c) as (X1 & X2 & _ & X4). cbn in D4, X4. split.
  - assert (De : Forall (fun x => e_digit env0 x = true) (dec_of_N c)) by (eapply Forall_impl; [exact D4|]; intros x Hx; by apply (ascii_digit_digit env0 wf_env0)).
    destruct (char_from_entity_dec env0 wf_env0 _ D2 De) as [Hok _]. rewrite D1 in Hok. by apply Hok.
  - assert (Xe : Forall hex_char (hex_of_N c)) by (eapply Forall_impl; [exact X4|]; intros x [Hx|Hx]; [by left|by right; left]).
    destruct (char_from_entity_hex _ X2 Xe) as [Hok _]. rewrite X1 in Hok. by apply Hok.
Qed.
Print Assumptions C61_read_back.
(** Beyond that the reference names another character or none. *)
Theorem C61_read_back_refuted : forall c, scalar c -> (0x10000 <= c)%N -> forall r, char_from_entity (to_entity c) = Ok r -> r <> [c].
Proof.
  intros c Hs Hc r H Hr. subst r. unfold to_entity in H. destruct (dec_numeral (c mod 65536)) as (D1 & D2 & _ & D4). cbn in D4.
  assert (De : Forall (fun x => e_digit env0 x = true) (dec_of_N (c mod 65536))) by (eapply Forall_impl; [exact D4|]; intros x Hx; by apply (ascii_digit_digit env0 wf_env0)).
  destruct (char_from_entity_dec env0 wf_env0 _ D2 De) as [Hok Hno]. pose proof (N.mod_lt c 65536 ltac:(lia)). destruct (scalar_dec (c mod 65536)) as [Hsc|Hsc].
  - rewrite D1 in Hok. specialize (Hok (conj D4 Hsc)). change (char_from_entity (38%N :: 35%N :: dec_of_N (c mod 65536) ++ [59%N]) = Ok [c]) in H.
    rewrite Hok in H. injection H as H. lia.
  - destruct Hno as [p Hp]; [intros [_ Hx]; by rewrite D1 in Hx|]. change (char_from_entity (38%N :: 35%N :: dec_of_N (c mod 65536) ++ [59%N]) = Ok [c]) in H. congruence.
Qed.
Print Assumptions C61_read_back_refuted.
Example C61_example : to_entity 8364 = lit "&#8364;" /\ to_entity_hex 8364 = lit "&#x20AC;" /\ char_from_entity (lit "&#x20ac;") = Ok [8364%N] /\
  char_from_entity (to_entity 0x1F600) = Ok [0xF600%N] /\ char_from_entity (to_entity 0x1D800) = Panic PUnwrap.
Proof. by vm_compute. Qed.
