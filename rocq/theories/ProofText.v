(** * ProofText: escaping, line ends, attribute values *)
From Verif Require Import History SpecText.
From Coq Require Import Lia.

(** ** Small tools *)
Lemma str_eqb_true a b : str_eqb a b = true <-> a = b.
Proof. unfold str_eqb. apply bool_decide_eq_true. Qed.
Lemma str_eqb_false a b : str_eqb a b = false <-> a <> b.
Proof. unfold str_eqb. apply bool_decide_eq_false. Qed.
Lemma ostr_eqb_true a b : ostr_eqb a b = true <-> a = b.
Proof. unfold ostr_eqb. apply bool_decide_eq_true. Qed.
Lemma blen_app a b : blen (a ++ b) = (blen a + blen b)%N.
Proof. induction a; cbn; lia. Qed.
Lemma utf8_len_pos c : (1 <= utf8_len c)%N.
Proof. unfold utf8_len. destruct (c <? 128)%N, (c <? 2048)%N, (c <? 65536)%N; lia. Qed.
Lemma in_range_true lo hi c : in_range lo hi c = true <-> (lo <= c <= hi)%N.
Proof. unfold in_range. rewrite andb_true_iff, !N.leb_le. tauto. Qed.
Lemma in_range_false lo hi c : in_range lo hi c = false <-> ~ (lo <= c <= hi)%N.
Proof. rewrite <- in_range_true. destruct (in_range lo hi c); split; intros; congruence || tauto. Qed.

(** ** Escaping *)
Lemma special_dec c : {special c} + {~ special c}.
Proof.
  unfold special.
  destruct (N.eq_dec c 38); [left; tauto|]. destruct (N.eq_dec c 39); [left; tauto|].
  destruct (N.eq_dec c 60); [left; tauto|]. destruct (N.eq_dec c 62); [left; tauto|].
  destruct (N.eq_dec c 34); [left; tauto|]. right; tauto.
Qed.
Lemma escape_char_plain c : ~ special c -> escape_char c = [c].
Proof.
  unfold special, escape_char, C_AMP, C_APOS, C_GT, C_LT, C_QUOT. intros H.
  repeat match goal with |- context [(?a =? ?b)%N] => destruct (N.eqb_spec a b); [tauto|] end.
  reflexivity.
Qed.
Lemma escape_char_special c : special c -> reference_of c (escape_char c).
Proof. intros [->|[->|[->|[->| ->]]]]; vm_compute; constructor. Qed.
Lemma escape_escaped v : escaped v (escape v).
Proof.
  induction v as [|c v IH]; cbn; [constructor|].
  destruct (special_dec c) as [H|H].
  - apply esc_special; [by apply escape_char_special|done].
  - rewrite escape_char_plain by done. by apply esc_plain.
Qed.
Lemma reference_of_fun c r1 r2 : reference_of c r1 -> reference_of c r2 -> r1 = r2.
Proof. destruct 1; inversion 1; reflexivity. Qed.
Lemma reference_of_special c r : reference_of c r -> special c.
Proof. unfold special. destruct 1; tauto. Qed.
Lemma escaped_fun v d1 d2 : escaped v d1 -> escaped v d2 -> d1 = d2.
Proof.
  intros H; revert d2; induction H as [|c v d Hc H IH|c r v d Hr H IH]; intros d2 H2; inversion H2; subst.
  - done.
  - f_equal; auto.
  - exfalso; eauto using reference_of_special.
  - exfalso; eauto using reference_of_special.
  - f_equal; eauto using reference_of_fun.
Qed.

Lemma escaped_markup_free v d : escaped v d -> markup_free d.
Proof.
  intros H. split.
  - induction H as [|c v d Hc H IH|c r v d Hr H IH]; intros x Hx.
    + destruct Hx.
    + destruct Hx as [->|Hx]; [|auto]. unfold special in Hc. repeat split; intros ->; tauto.
    + apply in_app_iff in Hx as [Hx|Hx]; [|auto].
      destruct Hr; cbn in Hx; repeat (destruct Hx as [<-|Hx]; [repeat split; discriminate|]); destruct Hx.
  - induction H as [|c v d Hc H IH|c r v d Hr H IH]; intros l rr Heq.
    + destruct l; discriminate.
    + destruct l as [|x l]; cbn in Heq; injection Heq as Heq1 Heq2.
      * subst. exfalso. apply Hc. left. done.
      * eauto.
    + destruct l as [|x l].
      * exists c, r, d. split; [done|]. cbn in Heq. symmetry. done.
      * assert (Hd : exists a, r = 38%N :: a /\ ~ In 38%N a).
        { destruct Hr; eexists; (split; [reflexivity|]); cbn; intros HH;
          repeat (destruct HH as [HH|HH]; [discriminate HH|]); destruct HH. }
        destruct Hd as (a & -> & Ha). cbn in Heq. injection Heq as <- Heq.
        (* l ++ 38 :: rr = a ++ d with 38 not in a: l extends a *)
        assert (exists l', l = a ++ l').
        { clear -Heq Ha. revert l Heq. induction a as [|y a IHa]; intros l Heq; [by exists l|].
          destruct l as [|z l]; cbn in Heq; injection Heq as H1 H2.
          - exfalso. apply Ha. left. done.
          - subst. destruct (IHa) with (l := l) as [l' ->]; [|done|by exists l'].
            intros HH. apply Ha. right. done. }
        destruct H0 as [l' ->]. rewrite <- app_assoc in Heq. apply app_inv_head in Heq. eauto.
Qed.

Lemma drop_prefix_app p d : drop_prefix p (p ++ d) = Some d.
Proof. unfold drop_prefix. rewrite take_app, drop_app, bool_decide_eq_true_2; done. Qed.
Lemma drop_prefix_ne p r d : length p = length r -> p <> r -> drop_prefix p (r ++ d) = None.
Proof. unfold drop_prefix. intros -> H. rewrite take_app, bool_decide_eq_false_2; [done|congruence]. Qed.
Lemma decode5_escaped v d : escaped v d -> forall k, (length d <= k)%nat -> decode5 k d = v.
Proof.
  intros H. induction H as [|c v d Hc H IH|c r v d Hr H IH]; intros k Hk.
  - by destruct k.
  - destruct k as [|k]; [cbn in Hk; lia|]. cbn in Hk.
    assert (Hne : c <> 38%N) by (intros ->; apply Hc; by left).
    cbn [decode5].
    assert (Hn : forall p, drop_prefix (38%N :: p) (c :: d) = None).
    { intros p. unfold drop_prefix. rewrite bool_decide_eq_false_2; [done|]. cbn. congruence. }
    change (lit "&#38;") with (38%N :: lit "#38;"). change (lit "&#39;") with (38%N :: lit "#39;").
    change (lit "&#60;") with (38%N :: lit "#60;"). change (lit "&#62;") with (38%N :: lit "#62;").
    change (lit "&#34;") with (38%N :: lit "#34;"). rewrite !Hn. f_equal. apply IH. lia.
  - assert (Hl : length r = 5%nat) by (destruct Hr; reflexivity).
    rewrite app_length in Hk. destruct k as [|k]; [lia|].
    assert (IHk : decode5 k d = v) by (apply IH; lia).
    assert (Hne : exists x y, r ++ d = x :: y) by (destruct Hr; cbn; eauto).
    destruct Hne as (x & y & Hxy). cbn [decode5]. rewrite Hxy, <- Hxy.
    destruct Hr;
      repeat first [ rewrite drop_prefix_app | rewrite drop_prefix_ne by (reflexivity || discriminate) ];
      by rewrite IHk.
Qed.
Lemma decode_escaped v d : escaped v d -> decode d = v.
Proof. intros H. eapply decode5_escaped; eauto. Qed.
Lemma escape_inj a b : escape a = escape b -> a = b.
Proof. intros H. rewrite <- (decode_escaped a (escape a)), H by apply escape_escaped. apply decode_escaped, escape_escaped. Qed.

Lemma escaped_blen v d : escaped v d ->
  (blen v <= blen d)%N /\ (blen v = blen d <-> Forall (fun c => ~ special c) v).
Proof.
  induction 1 as [|c v d Hc H IH|c r v d Hr H IH].
  - split; [done|]. split; [constructor|done].
  - destruct IH as [IH1 IH2]. cbn. split; [lia|]. rewrite Forall_cons. rewrite <- IH2. split; [intros; split; [done|lia]|intros []; lia].
  - destruct IH as [IH1 IH2]. cbn. rewrite blen_app.
    assert (blen r = 5%N /\ utf8_len c = 1%N) as [-> ->] by (destruct Hr; split; reflexivity).
    split; [lia|]. split; [lia|]. intros HF. apply Forall_cons in HF as [HF _].
    exfalso. eauto using reference_of_special.
Qed.

Lemma escape_app a b : escape (a ++ b) = escape a ++ escape b.
Proof. induction a as [|c a IH]; cbn; [done|]. by rewrite IH, app_assoc. Qed.
Lemma escape_plain v : Forall (fun c => ~ special c) v -> escape v = v.
Proof. induction 1; cbn; [done|]. rewrite escape_char_plain by done. cbn. by rewrite IHForall. Qed.

(** ** Line ends *)
Lemma normalize_eol_spec_len n s : (length s <= n)%nat -> line_ends_normalised s (normalize_eol s).
Proof.
  revert s. induction n as [|n IH]; intros s Hn.
  { destruct s; [constructor|cbn in Hn; lia]. }
  destruct s as [|c t]; [constructor|]. cbn in Hn. cbn [normalize_eol].
  destruct (N.eqb_spec c 13) as [->|H13].
  - destruct t as [|d t].
    + apply le_cr; [intros [? [?|?]]; discriminate|constructor].
    + cbn in Hn. destruct (N.eqb_spec d 10) as [->|Hd10]; cbn [orb].
      { apply le_crlf, IH. lia. }
      destruct (N.eqb_spec d 133) as [->|Hd]; cbn [orb].
      { apply le_crnel, IH. lia. }
      apply le_cr; [intros [? [H|H]]; injection H; intros; congruence|apply IH; cbn; lia].
  - destruct (N.eqb_spec c 133) as [->|H1]; cbn [orb].
    { apply le_nel, IH. lia. }
    destruct (N.eqb_spec c 8232) as [->|H2]; cbn [orb].
    { apply le_ls, IH. lia. }
    apply le_plain; try done. apply IH. lia.
Qed.
Lemma normalize_eol_spec s : line_ends_normalised s (normalize_eol s).
Proof. eapply normalize_eol_spec_len. reflexivity. Qed.
Lemma line_ends_fun s t1 t2 : line_ends_normalised s t1 -> line_ends_normalised s t2 -> t1 = t2.
Proof.
  intros H. revert t2. induction H; intros t2 Hx; inversion Hx; subst; try (f_equal; auto; fail); try congruence;
  exfalso; match goal with H : ~ starts_lf_nel _ |- _ => apply H; eexists; eauto end.
Qed.
Lemma line_ends_no s t : line_ends_normalised s t -> no_line_end_but_lf t.
Proof. induction 1; repeat constructor; try done; try discriminate. Qed.
Lemma line_ends_id s : no_line_end_but_lf s -> line_ends_normalised s s.
Proof. induction 1 as [|c s [? []]]; [constructor|]. by apply le_plain. Qed.
Lemma normalize_eol_id s : no_line_end_but_lf s -> normalize_eol s = s.
Proof. intros H. eapply line_ends_fun; [apply normalize_eol_spec|by apply line_ends_id]. Qed.
Lemma line_ends_length s t : line_ends_normalised s t -> (length t <= length s)%nat /\ (blen t <= blen s)%N.
Proof. induction 1; cbn in *; try lia. Qed.

(** ** Trimming *)
Lemma trim_start_spec c s : exists a, s = a ++ trim_start c s /\ Forall (eq c) a /\ forall x, trim_start c s <> c :: x.
Proof.
  induction s as [|d s IH]; cbn; [by exists []|].
  destruct (N.eqb_spec d c) as [->|Hd].
  - destruct IH as (a & Ha & Hf & Hx). exists (c :: a). split; [cbn; by f_equal|]. split; [by constructor|done].
  - exists []. split; [done|]. split; [constructor|]. intros x H. injection H. congruence.
Qed.
Lemma trim_matches_spec s : trimmed s (trim_matches 32 s).
Proof.
  unfold trim_matches, trim_end.
  destruct (trim_start_spec 32 s) as (a & Ha & Hfa & Hna).
  set (u := trim_start 32 s) in *.
  destruct (trim_start_spec 32 (rev u)) as (b & Hb & Hfb & Hnb).
  set (w := trim_start 32 (rev u)) in *.
  assert (Hu : u = rev w ++ rev b).
  { rewrite <- rev_app_distr, <- Hb. by rewrite rev_involutive. }
  exists a, (rev b). split; [by rewrite <- Hu|]. split; [done|].
  split. { unfold spaces. apply Forall_rev. done. }
  split.
  - intros x Hx. apply (Hna (x ++ rev b)). rewrite Hu, Hx. done.
  - intros x Hx. apply (Hnb (rev x)). rewrite <- (rev_involutive w), Hx, rev_app_distr. done.
Qed.
Lemma trimmed_all_spaces a b t : a = b ++ t -> spaces a -> spaces b -> (forall x, t <> 32%N :: x) -> t = [].
Proof.
  intros -> Ha _ Ht. destruct t as [|c t]; [done|]. exfalso.
  unfold spaces in Ha. apply Forall_app in Ha as [_ Ha]. apply Forall_cons in Ha as [<- _]. by eapply Ht.
Qed.
Lemma strip_prefix_unique a1 t1 a2 t2 : a1 ++ t1 = a2 ++ t2 -> spaces a1 -> spaces a2 ->
  (forall x, t1 <> 32%N :: x) -> (forall x, t2 <> 32%N :: x) -> t1 = t2.
Proof.
  revert a2. induction a1 as [|x a1 IH]; intros a2 H H1 H2 Hn1 Hn2.
  - destruct a2 as [|y a2]; [done|]. cbn in H. apply Forall_cons in H2 as [<- _]. exfalso. by eapply Hn1.
  - apply Forall_cons in H1 as [<- H1]. destruct a2 as [|y a2]; cbn in H.
    + exfalso. by eapply Hn2.
    + injection H as <- H. apply Forall_cons in H2 as [_ H2]. eapply IH; eauto.
Qed.
Lemma trimmed_fun s t1 t2 : trimmed s t1 -> trimmed s t2 -> t1 = t2.
Proof.
  intros (a1 & b1 & -> & Ha1 & Hb1 & Hn1 & Hm1) (a2 & b2 & H & Ha2 & Hb2 & Hn2 & Hm2).
  assert (Hcase : forall (t b : str), spaces b -> (forall x, t <> 32%N :: x) -> t <> [] -> forall x, t ++ b <> 32%N :: x).
  { intros t b Hb Hn Hne x Hx. destruct t as [|c t]; [done|]. cbn in Hx. injection Hx as -> _. by eapply Hn. }
  destruct (decide (t1 = [])) as [->|Hne1]; destruct (decide (t2 = [])) as [->|Hne2]; [done| | |].
  - exfalso. cbn in H.
    assert (spaces (a2 ++ t2 ++ b2)) as HF by (rewrite <- H; by apply Forall_app).
    apply Forall_app in HF as [_ HF]. apply Forall_app in HF as [HF _].
    destruct t2 as [|c t2]; [done|]. apply Forall_cons in HF as [<- _]. by eapply Hn2.
  - exfalso. cbn in H.
    assert (spaces (a1 ++ t1 ++ b1)) as HF by (rewrite H; by apply Forall_app).
    apply Forall_app in HF as [_ HF]. apply Forall_app in HF as [HF _].
    destruct t1 as [|c t1]; [done|]. apply Forall_cons in HF as [<- _]. by eapply Hn1.
  - assert (H' : t1 ++ b1 = t2 ++ b2) by (eapply strip_prefix_unique; eauto).
    apply (f_equal (@rev N)) in H'. rewrite !rev_app_distr in H'.
    assert (rev t1 = rev t2).
    { eapply strip_prefix_unique; [exact H'| | | |]; try (by apply Forall_rev).
      - intros x Hx. apply (Hm1 (rev x)). rewrite <- (rev_involutive t1), Hx. done.
      - intros x Hx. apply (Hm2 (rev x)). rewrite <- (rev_involutive t2), Hx. done. }
    rewrite <- (rev_involutive t1), H0. apply rev_involutive.
Qed.
Lemma trimmed_id s : (forall x, s <> 32%N :: x) -> (forall x, s <> x ++ [32%N]) -> trimmed s s.
Proof. intros H1 H2. exists [], []. rewrite app_nil_r. repeat split; done || constructor. Qed.
