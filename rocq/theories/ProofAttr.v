(** * ProofAttr: attribute value normalisation *)
From Verif Require Import History SpecText ProofText.
From Coq Require Import Lia.

Section wf.
  Context (E : env) (W : wf_env E).

  Lemma letter_false c : (c < 128)%N -> is_ascii_uppercase c || is_ascii_lowercase c = false -> e_letter E c = false.
  Proof. intros H1 H2. by rewrite (wf_letter E W). Qed.
  Lemma digit_false c : (c < 128)%N -> is_ascii_digit c = false -> e_digit E c = false.
  Proof. intros H1 H2. by rewrite (wf_digit E W). Qed.
  Lemma semi_not_digit : e_digit E 59 = false. Proof. by apply digit_false. Qed.
  Lemma x_not_digit : e_digit E 120 = false. Proof. by apply digit_false. Qed.
  Lemma hash_not_letter : e_letter E 35 = false. Proof. by apply letter_false. Qed.
  Lemma ascii_digit_digit c : ascii_digit c -> e_digit E c = true.
  Proof. unfold ascii_digit. intros H. rewrite (wf_digit E W) by lia. by apply in_range_true. Qed.
  Lemma semi_not_entity : is_entity_char E 59 = false.
  Proof. unfold is_entity_char. rewrite semi_not_digit, letter_false by done. done. Qed.
  Lemma is_entity_char_spec c : is_entity_char E c = true <->
    (e_letter E c = true \/ e_digit E c = true \/ c = 46%N \/ c = 95%N \/ c = 45%N).
  Proof. unfold is_entity_char. rewrite !orb_true_iff, !N.eqb_eq. tauto. Qed.
  Lemma is_entity_start_spec c : is_entity_start E c = true <-> (e_letter E c = true \/ c = 95%N).
  Proof. unfold is_entity_start. rewrite orb_true_iff, N.eqb_eq. tauto. Qed.

  (** *** span *)
  Lemma span_spec (p : N -> bool) s a b : span p s = (a, b) ->
    s = a ++ b /\ Forall (fun c => p c = true) a /\ match b with [] => True | c :: _ => p c = false end.
  Proof.
    revert a b. induction s as [|c s IH]; intros a b H; cbn in H.
    - injection H as <- <-. done.
    - destruct (p c) eqn:Hp.
      + destruct (span p s) as [a' b'] eqn:Hs. injection H as <- <-.
        destruct (IH a' b' eq_refl) as (-> & ? & ?). split; [done|]. split; [by constructor|done].
      + injection H as <- <-. repeat split; [constructor|done].
  Qed.
  Lemma span_app (p : N -> bool) a c r : Forall (fun c => p c = true) a -> p c = false ->
    span p (a ++ c :: r) = (a, c :: r).
  Proof. induction 1 as [|x a Hx Ha IH]; intros Hc; cbn; [by rewrite Hc|]. by rewrite Hx, (IH Hc). Qed.

  (** *** tokens *)
  Lemma match_entity_named s : named_ref E s -> exists m n, match_entity E s = Some (m, n) /\
    exists p t, m = p :: t /\ (p = 38%N \/ p = 37%N).
  Proof.
    intros (p & x & w & r & -> & Hp & Hx & Hw). cbn.
    assert (((p =? C_AMP) || (p =? 37))%N && is_entity_start E x = true) as ->.
    { rewrite andb_true_iff, orb_true_iff, !N.eqb_eq, is_entity_start_spec. done. }
    rewrite span_app; [|eapply Forall_impl; [exact Hw|]; intros c Hc; by apply is_entity_char_spec|exact semi_not_entity].
    cbn. eauto 10.
  Qed.
  Lemma match_entity_some s m n : match_entity E s = Some (m, n) -> named_ref E s.
  Proof.
    destruct s as [|c [|d t]]; cbn; try discriminate.
    destruct (((c =? C_AMP) || (c =? 37))%N && is_entity_start E d) eqn:Hc; [|discriminate].
    rewrite andb_true_iff, orb_true_iff, !N.eqb_eq, is_entity_start_spec in Hc.
    destruct (span (is_entity_char E) t) as [w [|e r]] eqn:Hs; [discriminate|].
    destruct (N.eqb_spec e C_SEMI) as [->|]; [|discriminate]. intros _.
    apply span_spec in Hs as (-> & Hw & _). exists c, d, w, r. split; [done|]. split; [tauto|]. split; [tauto|].
    eapply Forall_impl; [exact Hw|]. intros x Hx. by apply is_entity_char_spec.
  Qed.
  Lemma match_char_dec s ds r : dec_ref E s ds r ->
    match_char E s = Some (38%N :: 35%N :: ds ++ [59%N], (3 + length ds)%nat).
  Proof.
    intros (-> & Hne & Hds). cbn. rewrite span_app by (done || apply semi_not_digit).
    destruct ds as [|d ds]; [done|]. cbn. done.
  Qed.
  Lemma match_char_some s m n : match_char E s = Some (m, n) ->
    exists ds r, dec_ref E s ds r /\ m = 38%N :: 35%N :: ds ++ [59%N] /\ n = (3 + length ds)%nat.
  Proof.
    destruct s as [|c [|d t]]; cbn; try discriminate.
    destruct (N.eqb_spec c C_AMP) as [->|]; [|discriminate].
    destruct (N.eqb_spec d C_HASH) as [->|]; [|discriminate]. cbn.
    destruct (span (e_digit E) t) as [[|y w] [|e r]] eqn:Hs; try discriminate.
    destruct (N.eqb_spec e C_SEMI) as [->|]; [|discriminate]. intros H. injection H as <- <-.
    apply span_spec in Hs as (-> & Hw & _). exists (y :: w), r. split; [|done]. done.
  Qed.
  Lemma is_hex_digit_spec c : is_hex_digit c = true <-> hex_char c.
  Proof.
    unfold is_hex_digit, hex_char, ascii_digit, is_ascii_digit. rewrite !orb_true_iff, !in_range_true. tauto.
  Qed.
  Lemma match_hex_hex s ds r : hex_ref s ds r ->
    match_hex s = Some (38%N :: 35%N :: 120%N :: ds ++ [59%N], (4 + length ds)%nat).
  Proof.
    intros (-> & Hne & Hds). cbn. rewrite span_app; [|eapply Forall_impl; [exact Hds|]; intros; by apply is_hex_digit_spec|done].
    destruct ds as [|d ds]; [done|]. cbn. done.
  Qed.
  Lemma match_hex_some s m n : match_hex s = Some (m, n) ->
    exists ds r, hex_ref s ds r /\ m = 38%N :: 35%N :: 120%N :: ds ++ [59%N] /\ n = (4 + length ds)%nat.
  Proof.
    destruct s as [|c [|d [|x t]]]; cbn; try discriminate.
    destruct (N.eqb_spec c C_AMP) as [->|]; [|discriminate].
    destruct (N.eqb_spec d C_HASH) as [->|]; [|discriminate].
    destruct (N.eqb_spec x C_X) as [->|]; [|discriminate]. cbn.
    destruct (span is_hex_digit t) as [[|y w] [|e r]] eqn:Hs; try discriminate.
    destruct (N.eqb_spec e C_SEMI) as [->|]; [|discriminate]. intros H. injection H as <- <-.
    apply span_spec in Hs as (-> & Hw & _). exists (y :: w), r. split; [|done]. split; [done|]. split; [done|].
    eapply Forall_impl; [exact Hw|]. intros. by apply is_hex_digit_spec.
  Qed.

  Lemma named_not_dec s ds r : named_ref E s -> ~ dec_ref E s ds r.
  Proof.
    intros (p & x & w & q & -> & Hp & Hx & _) (H & _ & _). injection H as _ -> _.
    rewrite hash_not_letter in Hx. destruct Hx as [Hx|Hx]; discriminate.
  Qed.
  Lemma named_not_hex s ds r : named_ref E s -> ~ hex_ref s ds r.
  Proof.
    intros (p & x & w & q & -> & Hp & Hx & _) (H & _ & _). injection H as _ -> _.
    rewrite hash_not_letter in Hx. destruct Hx as [Hx|Hx]; discriminate.
  Qed.
  Lemma dec_not_hex s ds r ds' r' : dec_ref E s ds r -> ~ hex_ref s ds' r'.
  Proof.
    intros (-> & Hne & Hds) (H & _ & _). destruct ds as [|d ds]; [done|]. injection H as -> _.
    apply Forall_cons in Hds as [Hd _]. rewrite x_not_digit in Hd. discriminate.
  Qed.
  Lemma dec_ref_fun s ds r ds' r' : dec_ref E s ds r -> dec_ref E s ds' r' -> ds = ds' /\ r = r'.
  Proof.
    intros H1 H2. pose proof (match_char_dec _ _ _ H1) as A. rewrite (match_char_dec _ _ _ H2) in A.
    injection A as A _. apply app_inj_tail in A as [<- _].
    destruct H1 as (-> & _), H2 as (H & _). injection H as H. apply app_inv_head in H. injection H as <-. done.
  Qed.
  Lemma hex_ref_fun s ds r ds' r' : hex_ref s ds r -> hex_ref s ds' r' -> ds = ds' /\ r = r'.
  Proof.
    intros H1 H2. pose proof (match_hex_hex _ _ _ H1) as A. rewrite (match_hex_hex _ _ _ H2) in A.
    injection A as A _. apply app_inj_tail in A as [<- _].
    destruct H1 as (-> & _), H2 as (H & _). injection H as H. apply app_inv_head in H. injection H as <-. done.
  Qed.
  Lemma ref_amp_not_white s ds r c t : dec_ref E s ds r \/ hex_ref s ds r \/ named_ref E s -> s = c :: t -> ~ white c.
  Proof.
    unfold white. intros [(-> & _)|[(-> & _)|(p & ? & ? & ? & -> & Hp & _)]] H; injection H as <- _; [lia|lia|].
    destruct Hp; subst; lia.
  Qed.
  Lemma no_ref_match s : no_ref E s -> match_entity E s = None /\ match_char E s = None /\ match_hex s = None.
  Proof.
    intros (H1 & H2 & H3). repeat split.
    - destruct (match_entity E s) as [[m n]|] eqn:Hm; [|done]. exfalso. eauto using match_entity_some.
    - destruct (match_char E s) as [[m n]|] eqn:Hm; [|done]. apply match_char_some in Hm as (ds & r & Hd & _). exfalso. by eapply H2.
    - destruct (match_hex s) as [[m n]|] eqn:Hm; [|done]. apply match_hex_some in Hm as (ds & r & Hd & _). exfalso. by eapply H3.
  Qed.

  (** *** numbers *)
  Lemma parse_from_spec radix ds acc n : (1 <= radix)%N ->
    parse_u32_from radix acc ds = Some n <->
    Forall (fun c => digit_val radix c <> None) ds /\
    fold_left (fun a c => a * radix + default 0 (digit_val radix c))%N ds acc = n /\ ((n < 4294967296)%N \/ ds = []).
  Proof.
    intros Hr. revert acc. induction ds as [|c ds IH]; intros acc; cbn.
    - split; [intros H; injection H as ->; repeat split; [constructor|by right]|intros (_ & -> & _); done].
    - destruct (digit_val radix c) as [d|] eqn:Hd; cbn.
      + assert (Hmono : forall ds a b, (a <= b)%N ->
          (a <= fold_left (fun a c => a * radix + default 0 (digit_val radix c))%N ds b)%N).
        { clear -Hr. induction ds as [|x ds IH]; intros a b Hab; cbn; [done|]. apply IH. nia. }
        destruct (N.ltb_spec (acc * radix + d) 4294967296) as [Hlt|Hge].
        * rewrite IH. rewrite Forall_cons, Hd. split.
          -- intros (H1 & H2 & H3). split; [done|]. split; [done|]. left. destruct H3 as [H3| ->]; [done|]. cbn in H2. lia.
          -- intros ([_ H1] & H2 & H3). split; [done|]. split; [done|]. left. destruct H3; [done|discriminate].
        * split; [discriminate|]. intros (_ & H2 & [H3|H3]); [|discriminate].
          pose proof (Hmono ds (acc * radix + d)%N (acc * radix + d)%N ltac:(lia)). lia.
      + rewrite Forall_cons. split; [discriminate|]. intros ([H _] & _). rewrite Hd in H. done.
  Qed.
  Lemma digit_val_10 c : digit_val 10 c <> None <-> ascii_digit c.
  Proof.
    unfold digit_val, ascii_digit, is_ascii_digit.
    destruct (in_range 48 57 c) eqn:H; [apply in_range_true in H|apply in_range_false in H].
    - split; [done|]. intros _. destruct (N.ltb_spec (c - 48) 10); [done|lia].
    - destruct (in_range 97 122 c) eqn:H1; [apply in_range_true in H1|].
      { destruct (N.ltb_spec (c - 87) 10); [lia|]. split; [done|lia]. }
      destruct (in_range 65 90 c) eqn:H2; [apply in_range_true in H2|].
      { destruct (N.ltb_spec (c - 55) 10); [lia|]. split; [done|lia]. }
      split; [done|lia].
  Qed.
  Lemma digit_val_10_value c : ascii_digit c -> digit_val 10 c = Some (digit_value c).
  Proof.
    unfold digit_val, ascii_digit, is_ascii_digit, digit_value. intros H.
    rewrite (proj2 (in_range_true 48 57 c)) by lia.
    destruct (N.ltb_spec (c - 48) 10); [|lia]. destruct (N.leb_spec c 57); [done|lia].
  Qed.
  Lemma digit_val_16_value c : hex_char c -> digit_val 16 c = Some (digit_value c).
  Proof.
    unfold hex_char, digit_val, ascii_digit, is_ascii_digit, digit_value. intros H.
    destruct (in_range 48 57 c) eqn:H0; [apply in_range_true in H0|apply in_range_false in H0].
    { destruct (N.ltb_spec (c - 48) 16); [|lia]. destruct (N.leb_spec c 57); [done|lia]. }
    destruct (in_range 97 122 c) eqn:H1; [apply in_range_true in H1|apply in_range_false in H1].
    { destruct (N.ltb_spec (c - 87) 16); [|lia]. destruct (N.leb_spec c 57); [lia|]. destruct (N.leb_spec c 90); [lia|done]. }
    rewrite (proj2 (in_range_true 65 90 c)) by lia.
    destruct (N.ltb_spec (c - 55) 16); [|lia]. destruct (N.leb_spec c 57); [lia|]. destruct (N.leb_spec c 90); [done|lia].
  Qed.
  Lemma number_fold radix ds : Forall (fun c => digit_val radix c = Some (digit_value c)) ds -> forall a,
    fold_left (fun a c => a * radix + default 0 (digit_val radix c))%N ds a
    = fold_left (fun a c => a * radix + digit_value c)%N ds a.
  Proof. induction 1 as [|c ds Hc _ IH]; intros a; cbn; [done|]. rewrite Hc. cbn. apply IH. Qed.

  Lemma char_try_from_spec n : char_try_from n = Some n <-> scalar n.
  Proof.
    unfold char_try_from, scalar. split.
    - destruct (n <=? 1114111)%N eqn:H1; cbn; [|discriminate]. apply N.leb_le in H1.
      destruct (in_range 55296 57343 n) eqn:H2; cbn; [discriminate|]. apply in_range_false in H2. done.
    - intros [H1 H2]. rewrite (proj2 (N.leb_le _ _)) by lia. rewrite (proj2 (in_range_false _ _ _)) by lia. done.
  Qed.
  Lemma char_try_from_none n : ~ scalar n -> char_try_from n = None.
  Proof.
    intros H. destruct (char_try_from n) eqn:Hn; [|done]. exfalso. apply H, char_try_from_spec. rewrite Hn.
    unfold char_try_from in Hn. destruct (_ && _); [congruence|discriminate].
  Qed.
  Lemma removelast_snoc {A} (l : list A) x : removelast (l ++ [x]) = l.
  Proof. rewrite removelast_app by done. cbn. by rewrite app_nil_r. Qed.

  Lemma scalar_lt n : scalar n -> (n < 4294967296)%N. Proof. intros [H _]. lia. Qed.
  Lemma char_from_entity_dec ds : ds <> [] -> Forall (fun c => e_digit E c = true) ds ->
    (Forall ascii_digit ds /\ scalar (number 10 ds) -> char_from_entity (38%N :: 35%N :: ds ++ [59%N]) = Ok [number 10 ds]) /\
    (~ (Forall ascii_digit ds /\ scalar (number 10 ds)) -> exists p, char_from_entity (38%N :: 35%N :: ds ++ [59%N]) = Panic p).
  Proof.
    intros Hne Hd. destruct ds as [|d ds]; [done|]. apply Forall_cons in Hd as [Hd Hds].
    unfold char_from_entity. cbn [app].
    destruct (N.eqb_spec (utf8_len d) 1) as [Hu|Hu]; cbn [negb].
    - destruct (N.eqb_spec d C_X) as [->|Hx]; [unfold C_X in Hd; rewrite x_not_digit in Hd; discriminate|].
      change (d :: ds ++ [59%N]) with ((d :: ds) ++ [59%N]). rewrite removelast_snoc.
      destruct (parse_u32 10 (d :: ds)) as [n|] eqn:Hp.
      + unfold parse_u32 in Hp. apply parse_from_spec in Hp as (HF & Hv & _); [|lia].
        assert (HA : Forall ascii_digit (d :: ds)) by (eapply Forall_impl; [exact HF|]; intros; by apply digit_val_10).
        assert (Hnum : number 10 (d :: ds) = n).
        { unfold number. rewrite <- Hv. symmetry. apply number_fold. eapply Forall_impl; [exact HA|]. apply digit_val_10_value. }
        split.
        * intros [_ Hs]. rewrite <- Hnum in *. by rewrite (proj2 (char_try_from_spec _) Hs).
        * intros Hns. rewrite char_try_from_none; [eauto|]. rewrite <- Hnum. tauto.
      + split; [|eauto]. intros [HA Hs]. exfalso.
        assert (parse_u32 10 (d :: ds) = Some (number 10 (d :: ds))); [|congruence].
        unfold parse_u32. apply parse_from_spec; [lia|]. split; [|split].
        * eapply Forall_impl; [exact HA|]. intros. by apply digit_val_10.
        * apply number_fold. eapply Forall_impl; [exact HA|]. apply digit_val_10_value.
        * left. by apply scalar_lt.
    - split; [|eauto]. intros [HA _]. exfalso. apply Forall_cons in HA as [HA _]. apply Hu. unfold utf8_len.
      destruct (N.ltb_spec d 128); [done|]. unfold ascii_digit in HA. lia.
  Qed.
  Lemma char_from_entity_hex ds : ds <> [] -> Forall hex_char ds ->
    (scalar (number 16 ds) -> char_from_entity (38%N :: 35%N :: 120%N :: ds ++ [59%N]) = Ok [number 16 ds]) /\
    (~ scalar (number 16 ds) -> exists p, char_from_entity (38%N :: 35%N :: 120%N :: ds ++ [59%N]) = Panic p).
  Proof.
    intros Hne Hd. unfold char_from_entity. change (negb (utf8_len 120 =? 1)%N) with false.
    change (120 =? C_X)%N with true. cbv iota. rewrite removelast_snoc.
    assert (HF : Forall (fun c => digit_val 16 c = Some (digit_value c)) ds)
      by (eapply Forall_impl; [exact Hd|]; apply digit_val_16_value).
    destruct (parse_u32 16 ds) as [n|] eqn:Hp.
    - assert (Hnum : number 16 ds = n).
      { destruct ds as [|d ds]; [done|]. unfold parse_u32 in Hp. apply parse_from_spec in Hp as (_ & Hv & _); [|lia].
        rewrite <- Hv. symmetry. by apply number_fold. }
      split.
      + intros Hs. rewrite <- Hnum in *. by rewrite (proj2 (char_try_from_spec _) Hs).
      + intros Hns. rewrite char_try_from_none; [eauto|]. by rewrite <- Hnum.
    - split; [|eauto]. intros Hs. exfalso.
      assert (parse_u32 16 ds = Some (number 16 ds)); [|congruence].
      destruct ds as [|d ds]; [done|]. unfold parse_u32. apply parse_from_spec; [lia|]. split; [|split].
      + eapply Forall_impl; [exact HF|]. intros x Hx. cbn in Hx. by rewrite Hx.
      + by apply number_fold.
      + left. by apply scalar_lt.
  Qed.

  (** *** the scanner *)
  Section scan.
    Context (repl : token -> res str).
    Context (repl_entity : forall p t, p = 38%N \/ p = 37%N -> exists q, repl (TEntity (p :: t)) = Panic q).
    Context (repl_char : forall m, repl (TChar m) = char_from_entity m).
    Context (repl_hex : forall m, repl (THex m) = char_from_entity m).
    Context (repl_ws : repl TWs = Ok [32%N]).

    Lemma scan_skip s n : scan E repl s n = scan E repl (drop n s) 0.
    Proof. revert n. induction s as [|c s IH]; intros [|n]; [done..|]. cbn [drop]. rewrite <- IH. done. Qed.

    Lemma find_token_dec s ds r : dec_ref E s ds r ->
      find_token E s = Some (TChar (38%N :: 35%N :: ds ++ [59%N]), (3 + length ds)%nat).
    Proof.
      intros H. unfold find_token.
      destruct (match_entity E s) as [[m n]|] eqn:Hm.
      { exfalso. eapply named_not_dec; eauto using match_entity_some. }
      by rewrite (match_char_dec _ _ _ H).
    Qed.
    Lemma find_token_hex s ds r : hex_ref s ds r ->
      find_token E s = Some (THex (38%N :: 35%N :: 120%N :: ds ++ [59%N]), (4 + length ds)%nat).
    Proof.
      intros H. unfold find_token.
      destruct (match_entity E s) as [[m n]|] eqn:Hm.
      { exfalso. eapply named_not_hex; eauto using match_entity_some. }
      destruct (match_char E s) as [[m n]|] eqn:Hc.
      { exfalso. apply match_char_some in Hc as (ds' & r' & Hd & _). eapply dec_not_hex; eauto. }
      by rewrite (match_hex_hex _ _ _ H).
    Qed.
    Lemma find_token_plain c s : ~ white c -> no_ref E (c :: s) -> find_token E (c :: s) = None.
    Proof.
      intros Hw Hn. apply no_ref_match in Hn as (H1 & H2 & H3). unfold find_token. rewrite H1, H2, H3.
      assert ((c =? 9)%N || (c =? 10)%N || (c =? 13)%N = false) as ->; [|done].
      unfold white in Hw. rewrite !orb_false_iff, !N.eqb_neq. tauto.
    Qed.
    Lemma no_ref_other c s : c <> 38%N -> c <> 37%N -> no_ref E (c :: s).
    Proof.
      intros H1 H2. split; [|split].
      - intros (p & ? & ? & ? & H & Hp & _). injection H as -> _. destruct Hp; congruence.
      - intros ds r (H & _). injection H as -> _. done.
      - intros ds r (H & _). injection H as -> _. done.
    Qed.
    Lemma find_token_white c s : white c -> find_token E (c :: s) = Some (TWs, 1%nat).
    Proof.
      intros Hw. assert (Hn : no_ref E (c :: s)) by (apply no_ref_other; unfold white in Hw; lia).
      apply no_ref_match in Hn as (H1 & H2 & H3). unfold find_token. rewrite H1, H2, H3.
      assert ((c =? 9)%N || (c =? 10)%N || (c =? 13)%N = true) as ->; [|done].
      unfold white in Hw. rewrite !orb_true_iff, !N.eqb_eq. tauto.
    Qed.
    Lemma drop_dec ds r : drop (2 + length ds) (35%N :: ds ++ 59%N :: r) = r.
    Proof. cbn. rewrite <- (drop_app (ds ++ [59%N]) r) at 2. rewrite app_length, <- app_assoc. cbn. by rewrite Nat.add_1_r. Qed.
    Lemma drop_hex ds r : drop (3 + length ds) (35%N :: 120%N :: ds ++ 59%N :: r) = r.
    Proof. cbn. rewrite <- (drop_app (ds ++ [59%N]) r) at 2. rewrite app_length, <- app_assoc. cbn. by rewrite Nat.add_1_r. Qed.

    Lemma scan_unfold c s : scan E repl (c :: s) 0 =
      match find_token E (c :: s) with
      | Some (tok, n) => let? r := repl tok in let? rest := scan E repl s (n - 1)%nat in Ok (r ++ rest)
      | None => let? rest := scan E repl s 0%nat in Ok (c :: rest)
      end.
    Proof. done. Qed.
    Lemma scan_dec s ds r : dec_ref E s ds r -> scan E repl s 0 =
      (let? x := char_from_entity (38%N :: 35%N :: ds ++ [59%N]) in let? rest := scan E repl r 0 in Ok (x ++ rest)).
    Proof.
      intros H. pose proof (find_token_dec _ _ _ H) as Ht. destruct H as (-> & _).
      rewrite scan_unfold, Ht, repl_char. rewrite scan_skip.
      replace (3 + length ds - 1)%nat with (2 + length ds)%nat by lia. by rewrite drop_dec.
    Qed.
    Lemma scan_hex s ds r : hex_ref s ds r -> scan E repl s 0 =
      (let? x := char_from_entity (38%N :: 35%N :: 120%N :: ds ++ [59%N]) in let? rest := scan E repl r 0 in Ok (x ++ rest)).
    Proof.
      intros H. pose proof (find_token_hex _ _ _ H) as Ht. destruct H as (-> & _).
      rewrite scan_unfold, Ht, repl_hex. rewrite scan_skip.
      replace (4 + length ds - 1)%nat with (3 + length ds)%nat by lia. by rewrite drop_hex.
    Qed.

    Lemma scan_expands s t : expands E s t -> scan E repl s 0 = Ok t.
    Proof.
      induction 1 as [|c s t Hw H IH|s ds r t Hr Ha Hs H IH|s ds r t Hr Hs H IH|c s t Hw Hn H IH].
      - done.
      - rewrite scan_unfold, find_token_white, repl_ws by done. cbn [rbind]. change (1 - 1)%nat with 0%nat. by rewrite IH.
      - rewrite (scan_dec _ _ _ Hr), IH. destruct Hr as (_ & Hne & Hd).
        rewrite (proj1 (char_from_entity_dec ds Hne Hd)) by done. done.
      - rewrite (scan_hex _ _ _ Hr), IH. destruct Hr as (_ & Hne & Hd).
        rewrite (proj1 (char_from_entity_hex ds Hne Hd)) by done. done.
      - rewrite scan_unfold, find_token_plain by done. by rewrite IH.
    Qed.
    Lemma scan_blocked s : blocked E s -> exists p, scan E repl s 0 = Panic p.
    Proof.
      induction 1 as [s Hn|s ds r Hr Hb|s ds r Hr Hb|c s Hw H IH|s ds r Hr Ha Hs H IH|s ds r Hr Hs H IH|c s Hw Hn H IH].
      - pose proof (match_entity_named _ Hn) as (m & n & Hm & p & t & -> & Hp).
        destruct Hn as (? & ? & ? & ? & -> & _). rewrite scan_unfold. unfold find_token. rewrite Hm.
        destruct (repl_entity p t Hp) as [q ->]. cbn. eauto.
      - rewrite (scan_dec _ _ _ Hr). destruct Hr as (_ & Hne & Hd).
        destruct (proj2 (char_from_entity_dec ds Hne Hd) Hb) as [p ->]. cbn. eauto.
      - rewrite (scan_hex _ _ _ Hr). destruct Hr as (_ & Hne & Hd).
        destruct (proj2 (char_from_entity_hex ds Hne Hd) Hb) as [p ->]. cbn. eauto.
      - destruct IH as [p IH]. rewrite scan_unfold, find_token_white, repl_ws by done. cbn [rbind].
        change (1 - 1)%nat with 0%nat. rewrite IH. cbn. eauto.
      - destruct IH as [p IH]. rewrite (scan_dec _ _ _ Hr), IH. destruct Hr as (_ & Hne & Hd).
        rewrite (proj1 (char_from_entity_dec ds Hne Hd)) by done. cbn. eauto.
      - destruct IH as [p IH]. rewrite (scan_hex _ _ _ Hr), IH. destruct Hr as (_ & Hne & Hd).
        rewrite (proj1 (char_from_entity_hex ds Hne Hd)) by done. cbn. eauto.
      - destruct IH as [p IH]. rewrite scan_unfold, find_token_plain by done. rewrite IH. cbn. eauto.
    Qed.
  End scan.

  (** *** every text either expands or is blocked *)
  Lemma ref_shorter_dec s ds r : dec_ref E s ds r -> (length r < length s)%nat.
  Proof. intros (-> & _). cbn. rewrite app_length. cbn. lia. Qed.
  Lemma ref_shorter_hex s ds r : hex_ref s ds r -> (length r < length s)%nat.
  Proof. intros (-> & _). cbn. rewrite app_length. cbn. lia. Qed.
  Lemma scalar_dec n : {scalar n} + {~ scalar n}.
  Proof. destruct (char_try_from n) eqn:H; [left|right]; rewrite <- char_try_from_spec.
    - rewrite H. unfold char_try_from in H. destruct (_ && _); congruence.
    - congruence.
  Qed.
  #[local] Instance ascii_digit_dec c : Decision (ascii_digit c).
  Proof. destruct (digit_val 10 c) eqn:H; [left|right]; rewrite <- digit_val_10; congruence. Qed.

  Lemma white_dec c : {white c} + {~ white c}.
  Proof.
    unfold white. destruct (N.eq_dec c 9); [left; tauto|]. destruct (N.eq_dec c 10); [left; tauto|].
    destruct (N.eq_dec c 13); [left; tauto|]. right; tauto.
  Qed.
  Lemma expands_or_blocked_len n s : (length s <= n)%nat -> (exists t, expands E s t) \/ blocked E s.
  Proof.
    revert s. induction n as [|n IH]; intros s Hn.
    { destruct s; [left; exists []; constructor|cbn in Hn; lia]. }
    destruct s as [|c s]; [left; exists []; constructor|]. cbn in Hn.
    destruct (match_entity E (c :: s)) as [[m k]|] eqn:H1.
    { right. apply bl_named. by eapply match_entity_some. }
    destruct (match_char E (c :: s)) as [[m k]|] eqn:H2.
    { apply match_char_some in H2 as (ds & r & Hr & _).
      destruct (decide (Forall ascii_digit ds)) as [Ha|Ha].
      - destruct (scalar_dec (number 10 ds)) as [Hs|Hs].
        + pose proof (ref_shorter_dec _ _ _ Hr) as Hl. cbn in Hl. destruct (IH r) as [[t Ht]|Hb]; [lia| |].
          * left. exists (number 10 ds :: t). eapply ex_dec; eauto.
          * right. eapply bl_skip_dec; eauto.
        + right. eapply bl_dec; [done|]. tauto.
      - right. eapply bl_dec; [done|]. tauto. }
    destruct (match_hex (c :: s)) as [[m k]|] eqn:H3.
    { apply match_hex_some in H3 as (ds & r & Hr & _).
      destruct (scalar_dec (number 16 ds)) as [Hs|Hs].
      - pose proof (ref_shorter_hex _ _ _ Hr) as Hl. cbn in Hl. destruct (IH r) as [[t Ht]|Hb]; [lia| |].
        + left. exists (number 16 ds :: t). eapply ex_hex; eauto.
        + right. eapply bl_skip_hex; eauto.
      - right. eapply bl_hex; eauto. }
    assert (Hno : no_ref E (c :: s)).
    { split; [|split].
      - intros Hx. apply match_entity_named in Hx as (? & ? & Hx & _). congruence.
      - intros ds r Hx. apply match_char_dec in Hx. congruence.
      - intros ds r Hx. apply match_hex_hex in Hx. congruence. }
    destruct (IH s ltac:(lia)) as [[t Ht]|Hb].
    - left. destruct (white_dec c) as [Hw|Hw]; [exists (32%N :: t); by constructor|exists (c :: t); by constructor].
    - right. destruct (white_dec c) as [Hw|Hw]; [by apply bl_white|by apply bl_plain].
  Qed.
  Lemma expands_or_blocked s : (exists t, expands E s t) \/ blocked E s.
  Proof. eapply expands_or_blocked_len. reflexivity. Qed.

  (** *** the node resolver never finds an entity *)
  Lemma split_on_head c s sep : c <> sep -> exists w ws, split_on sep (c :: s) = (c :: w) :: ws.
  Proof.
    intros H. cbn. destruct (N.eqb_spec c sep); [done|]. destruct (split_on sep s); eauto.
  Qed.
  Lemma name_from_str_ref p t : p = 38%N \/ p = 37%N -> match name_from_str (p :: t) with Ok _ => False | _ => True end.
  Proof.
    intros Hp. unfold name_from_str. cbn [is_nil].
    destruct (split_on_head p t C_COLON) as (w & ws & ->); [unfold C_COLON; destruct Hp; subst; discriminate|].
    assert (Hbad : check_part (p :: w) = Err InvalidCharacter).
    { unfold check_part, is_xml_name. cbn [is_nil]. by destruct Hp as [->| ->]. }
    destruct ws as [|l [|? ?]]; [by rewrite Hbad| |done].
    destruct (check_part l); cbn [rbind]; [by rewrite Hbad|done..].
  Qed.
  Lemma resolve_never_some h i p t : p = 38%N \/ p = 37%N ->
    resolve_entity h i (p :: t) = Ok None \/ exists q, resolve_entity h i (p :: t) = Panic q.
  Proof.
    intros Hp. unfold resolve_entity. pose proof (name_from_str_ref p t Hp) as Hn.
    assert (G : forall j, get_node h j = Panic PNoHandle \/ exists n, get_node h j = Ok n)
      by (intros j; unfold get_node; destruct (h_nodes h !! j); eauto).
    destruct (G i) as [->|[n ->]]; [eauto|]. cbn [rbind].
    match goal with |- context [rbind ?m _] => set (dt := m) end.
    assert (Hdt : (exists q, dt = Panic q) \/ exists o, dt = Ok o).
    { unfold dt, doc_type.
      destruct (n_type n); eauto;
      repeat first [ progress cbn [rbind] | match goal with |- context [upgrade h ?x] => destruct (upgrade h x) as [d|] end
        | match goal with |- context [get_node h ?j] => destruct (G j) as [->|[? ->]] end
        | match goal with |- context [if ?b then _ else _] => destruct b end ]; eauto. }
    destruct Hdt as [[q ->]|[o ->]]; [cbn; eauto|]. cbn [rbind].
    destruct o as [d|]; [|eauto]. destruct (G d) as [->|[nd ->]]; [cbn; eauto|]. cbn [rbind].
    destruct (is_type NDocumentType nd); [|eauto].
    destruct (name_from_str (p :: t)) as [x|e|q|] eqn:Hx; cbn; [done|by eauto|by eauto|].
    exfalso. revert Hx. unfold name_from_str. cbn [is_nil].
    assert (Hcp : forall x, check_part x <> Diverge).
    { intros x. unfold check_part, is_xml_name, split_at_res. destruct x as [|c0 x]; [done|]. cbn [is_nil].
      destruct (is_xml_name_start_char c0); [|done]. destruct (split_at (c0 :: x) 1); cbn [rbind]; [|done]. by destruct (forallb _ _). }
    destruct (split_on C_COLON (p :: t)) as [|a [|b [|? ?]]]; try done.
    - pose proof (Hcp a). destruct (check_part a); cbn [rbind]; try done. unfold name_new. by destruct (is_nil _).
    - pose proof (Hcp b). pose proof (Hcp a). destruct (check_part b); cbn [rbind]; try done. destruct (check_part a); cbn [rbind]; try done.
      unfold name_new. by repeat destruct (is_nil _).
  Qed.

  (** *** the whole normaliser, for the node resolver *)
  Lemma normalize_expands h i k cd raw t : expands E (normalize_eol raw) t ->
    normalize_attribute_value (S k) E (resolve_entity h i) cd raw = Ok (if cd then t else trim_matches 32 t).
  Proof.
    intros H. cbn [normalize_attribute_value].
    match goal with |- context [scan E ?r _ _] => erewrite (scan_expands r) end; [|reflexivity|reflexivity|reflexivity|exact H].
    cbn. by destruct cd.
  Qed.
  Lemma normalize_blocked h i k cd raw : blocked E (normalize_eol raw) ->
    exists p, normalize_attribute_value (S k) E (resolve_entity h i) cd raw = Panic p.
  Proof.
    intros H. cbn [normalize_attribute_value].
    match goal with |- context [scan E ?r _ _] => edestruct (scan_blocked r) as [p Hp] end; [..|rewrite Hp; cbn; eauto]; try reflexivity; [|exact H].
    intros p t Hp. cbn. destruct (resolve_never_some h i p t Hp) as [->|[q ->]]; cbn; eauto.
  Qed.

  (** *** stored text *)
  Lemma attr_text_stored h cs parts : Forall2 (child_text h) cs parts -> attr_text h cs = Ok (concat parts).
  Proof.
    induction 1 as [|c p cs ps Hc _ IH]; [done|]. cbn. destruct Hc as (n & Hn & Hc).
    unfold get_node. rewrite Hn. cbn. rewrite IH. cbn. f_equal. f_equal. unfold is_type, type_eqb.
    destruct Hc as [[[Ht|Ht] ->]|(H1 & H2 & ->)].
    - rewrite Ht. cbn. by destruct (n_value n).
    - rewrite Ht. cbn. by destruct (n_value n).
    - by rewrite !bool_decide_eq_false_2.
  Qed.
  Lemma attr_value_expands h a raw t : stored_text h a raw -> expands E (normalize_eol raw) t ->
    attr_value E h a = Ok (Some (escape (trim_matches 32 t))).
  Proof.
    intros (n & parts & Hn & Hne & Hp & ->) Hex. unfold attr_value, get_node. rewrite Hn. cbn [rbind].
    destruct (n_children n) as [|c cs] eqn:Hcs; [done|]. cbn [is_nil]. rewrite <- Hcs in *.
    rewrite (attr_text_stored _ _ _ Hp). cbn [rbind]. unfold entity_fuel.
    rewrite (normalize_expands _ _ _ _ _ _ Hex). done.
  Qed.
  Lemma attr_value_blocked h a raw : stored_text h a raw -> blocked E (normalize_eol raw) ->
    exists p, attr_value E h a = Panic p.
  Proof.
    intros (n & parts & Hn & Hne & Hp & ->) Hex. unfold attr_value, get_node. rewrite Hn. cbn [rbind].
    destruct (n_children n) as [|c cs] eqn:Hcs; [done|]. cbn [is_nil]. rewrite <- Hcs in *.
    rewrite (attr_text_stored _ _ _ Hp). cbn [rbind]. unfold entity_fuel.
    destruct (normalize_blocked h a 63 false _ Hex) as [p ->]. cbn. eauto.
  Qed.

  (** *** texts without [&] and [%] *)
  Lemma white_to_space_white c : white c -> white_to_space c = 32%N.
  Proof. unfold white_to_space. intros. by rewrite bool_decide_eq_true_2. Qed.
  Lemma expands_plain s : (forall c, In c s -> c <> 38%N /\ c <> 37%N) -> expands E s (map white_to_space s).
  Proof.
    induction s as [|c s IH]; intros H; cbn; [constructor|].
    assert (expands E s (map white_to_space s)) by (apply IH; intros; apply H; by right).
    destruct (H c (or_introl eq_refl)) as [H1 H2].
    destruct (white_dec c) as [Hw|Hw]; unfold white_to_space at 1.
    - rewrite bool_decide_eq_true_2 by done. by apply ex_white.
    - rewrite bool_decide_eq_false_2 by done. apply ex_plain; [done| |done]. by apply no_ref_other.
  Qed.
  Lemma line_ends_in s t c : line_ends_normalised s t -> In c t -> c = 10%N \/ In c s.
  Proof. induction 1; cbn; intros Hin; try tauto; destruct Hin as [<-|Hin]; try tauto; destruct (IHline_ends_normalised Hin); tauto. Qed.

  (** *** escaped texts expand to what was escaped *)
  Lemma escaped_expands t d : escaped t d -> Forall (fun c => ~ white c) t -> ~ In 37%N t -> expands E d t.
  Proof.
    induction 1 as [|c v d Hc H IH|c r v d Hr H IH]; intros Hw Hp; [constructor| |].
    - apply Forall_cons in Hw as [Hw1 Hw2]. apply ex_plain; [done| |apply IH; [done|intros ?; apply Hp; by right]].
      apply no_ref_other; [intros ->; apply Hc; by left|intros ->; apply Hp; by left].
    - apply Forall_cons in Hw as [_ Hw]. assert (expands E d v) by (apply IH; [done|intros ?; apply Hp; by right]).
      assert (Hd : forall a b, ascii_digit a -> ascii_digit b -> scalar (number 10 [a; b]) ->
        expands E ([38; 35; a; b; 59]%N ++ d) (number 10 [a; b] :: v)).
      { intros a b Ha Hb Hs. apply (ex_dec E _ [a; b] d v); [|constructor; [done|constructor; [done|constructor]]|done|done].
        split; [reflexivity|]. split; [done|]. repeat constructor; by apply ascii_digit_digit. }
      destruct Hr.
      + apply (Hd 51%N 56%N); unfold ascii_digit, scalar; try lia. cbn. lia.
      + apply (Hd 51%N 57%N); unfold ascii_digit, scalar; try lia. cbn. lia.
      + apply (Hd 54%N 48%N); unfold ascii_digit, scalar; try lia. cbn. lia.
      + apply (Hd 54%N 50%N); unfold ascii_digit, scalar; try lia. cbn. lia.
      + apply (Hd 51%N 52%N); unfold ascii_digit, scalar; try lia. cbn. lia.
  Qed.
  Lemma escaped_in t d c : escaped t d -> In c d -> In c t \/ (c < 128)%N /\ c <> 13%N.
  Proof.
    induction 1 as [|x v d Hc H IH|x r v d Hr H IH]; cbn; [tauto| |].
    - intros [->|Hin]; [tauto|]. destruct (IH Hin); tauto.
    - intros Hin. apply in_app_iff in Hin as [Hin|Hin]; [|destruct (IH Hin); tauto].
      right.
      destruct Hr; vm_compute in Hin; repeat (destruct Hin as [<-|Hin]; [split; [reflexivity|discriminate]|]); destruct Hin.
  Qed.

  (** *** where the walk stops *)
  Lemma blocked_bad s : blocked E s -> exists p r, s = p ++ r /\ bad_ref E r.
  Proof.
    induction 1 as [s Hn|s ds r Hr Hb|s ds r Hr Hb|c s Hw H IH|s ds r Hr Ha Hs H IH|s ds r Hr Hs H IH|c s Hw Hn H IH].
    - exists [], s. split; [done|]. by left.
    - exists [], s. split; [done|]. right. left. eauto.
    - exists [], s. split; [done|]. right. right. eauto.
    - destruct IH as (p & r & -> & Hb). by exists (c :: p), r.
    - destruct IH as (p & q & -> & Hb). destruct Hr as (-> & _).
      exists (38%N :: 35%N :: ds ++ 59%N :: p), q. split; [|done]. cbn. by rewrite <- app_assoc.
    - destruct IH as (p & q & -> & Hb). destruct Hr as (-> & _).
      exists (38%N :: 35%N :: 120%N :: ds ++ 59%N :: p), q. split; [|done]. cbn. by rewrite <- app_assoc.
    - destruct IH as (p & r & -> & Hb). by exists (c :: p), r.
  Qed.
  Lemma bad_blocked r : bad_ref E r -> blocked E r.
  Proof.
    intros [H|[(ds & q & H1 & H2)|(ds & q & H1 & H2)]]; [by apply bl_named|by eapply bl_dec|by eapply bl_hex].
  Qed.
  Lemma bad_head r : bad_ref E r -> exists c t, r = c :: t /\ (c = 38%N \/ c = 37%N).
  Proof.
    intros [(p & ? & ? & ? & -> & Hp & _)|[(ds & q & (-> & _) & _)|(ds & q & (-> & _) & _)]]; eauto.
  Qed.
  Lemma split_body (ds rest q r' : str) (c : N) : ~ In c ds -> c <> 59%N -> ds ++ 59%N :: rest = q ++ c :: r' ->
    exists p, q = ds ++ 59%N :: p /\ rest = p ++ c :: r'.
  Proof.
    revert q. induction ds as [|d ds IH]; intros q Hin Hc H; cbn in *.
    - destruct q as [|x q]; cbn in H; injection H as H1 H2; [congruence|]. subst. eauto.
    - destruct q as [|x q]; cbn in H; injection H as H1 H2; [subst; tauto|].
      destruct (IH q) as (p & -> & ->); [tauto|done..|]. subst. eauto.
  Qed.
  Lemma amp_not_digit c : c = 38%N \/ c = 37%N -> e_digit E c = false.
  Proof. intros [->| ->]; by apply digit_false. Qed.
  Lemma not_in_digits c ds : c = 38%N \/ c = 37%N -> Forall (fun c => e_digit E c = true) ds -> ~ In c ds.
  Proof.
    intros Hc Hd Hin. rewrite List.Forall_forall in Hd. apply Hd in Hin. rewrite amp_not_digit in Hin; done.
  Qed.
  Lemma not_in_hex c ds : c = 38%N \/ c = 37%N -> Forall hex_char ds -> ~ In c ds.
  Proof.
    intros Hc Hd Hin. rewrite List.Forall_forall in Hd. apply Hd in Hin. unfold hex_char, ascii_digit in Hin. lia.
  Qed.
  Lemma blocked_app_len n p c r : (length p <= n)%nat -> c = 38%N \/ c = 37%N -> blocked E (c :: r) ->
    blocked E (p ++ c :: r).
  Proof.
    revert p. induction n as [|n IH]; intros p Hn Hc Hb.
    { destruct p; [done|cbn in Hn; lia]. }
    destruct p as [|x p]; [done|]. cbn in Hn |- *.
    destruct (match_entity E (x :: p ++ c :: r)) as [[m k]|] eqn:H1.
    { apply bl_named. by eapply match_entity_some. }
    destruct (match_char E (x :: p ++ c :: r)) as [[m k]|] eqn:H2.
    { apply match_char_some in H2 as (ds & q & Hr & _).
      destruct (decide (Forall ascii_digit ds)) as [Ha|Ha]; [|eapply bl_dec; [done|tauto]].
      destruct (scalar_dec (number 10 ds)) as [Hs|Hs]; [|eapply bl_dec; [done|tauto]].
      eapply bl_skip_dec; [done..|]. destruct Hr as (Heq & Hne & Hd). injection Heq as -> Heq.
      destruct p as [|y p]; cbn in Heq; injection Heq as Hy Heq.
      { subst. destruct Hc; discriminate. }
      subst. symmetry in Heq. apply split_body in Heq as (p' & -> & ->); [|by apply not_in_digits|destruct Hc; subst; discriminate].
      apply IH; [|done..]. cbn in Hn. rewrite app_length in Hn. cbn in Hn. lia. }
    destruct (match_hex (x :: p ++ c :: r)) as [[m k]|] eqn:H3.
    { apply match_hex_some in H3 as (ds & q & Hr & _).
      destruct (scalar_dec (number 16 ds)) as [Hs|Hs]; [|by eapply bl_hex].
      eapply bl_skip_hex; [done..|]. destruct Hr as (Heq & Hne & Hd). injection Heq as -> Heq.
      destruct p as [|y p]; cbn in Heq; injection Heq as Hy Heq.
      { subst. destruct Hc; discriminate. }
      destruct p as [|z p]; cbn in Heq; injection Heq as Hz Heq.
      { subst. destruct Hc; discriminate. }
      subst. symmetry in Heq. apply split_body in Heq as (p' & -> & ->); [|by apply not_in_hex|destruct Hc; subst; discriminate].
      apply IH; [|done..]. cbn in Hn. rewrite app_length in Hn. cbn in Hn. lia. }
    assert (Hb' : blocked E (p ++ c :: r)) by (apply IH; [lia|done..]).
    destruct (white_dec x) as [Hw|Hw]; [by apply bl_white|]. apply bl_plain; [done| |done].
    split; [|split].
    - intros Hx. apply match_entity_named in Hx as (? & ? & Hx & _). congruence.
    - intros ds q Hx. apply match_char_dec in Hx. congruence.
    - intros ds q Hx. apply match_hex_hex in Hx. congruence.
  Qed.
  Lemma bad_app_blocked p r : bad_ref E r -> blocked E (p ++ r).
  Proof.
    intros Hb. destruct (bad_head r Hb) as (c & t & -> & Hc). eapply blocked_app_len; [reflexivity|done|].
    by apply bad_blocked.
  Qed.

  (** *** line ends and references do not interfere *)
  Lemma line_ends_app p p' c r r' : line_ends_normalised p p' -> c <> 10%N -> c <> 133%N ->
    line_ends_normalised (c :: r) r' -> line_ends_normalised (p ++ c :: r) (p' ++ r').
  Proof.
    intros H Hc1 Hc2 Hr. induction H; cbn; try (by constructor); [done|].
    apply le_cr; [|done]. intros [t0 Ht]. destruct s as [|x s]; cbn in Ht.
    - destruct Ht as [Ht|Ht]; injection Ht; congruence.
    - destruct Ht as [Ht|Ht]; injection Ht as -> _; apply H; eexists; eauto.
  Qed.
  Definition no_end (c : N) : Prop := c <> 13%N /\ c <> 133%N /\ c <> 8232%N.
  Lemma line_ends_pre w s t : Forall no_end w -> line_ends_normalised s t -> line_ends_normalised (w ++ s) (w ++ t).
  Proof. induction 1 as [|c w (H1 & H2 & H3) _ IH]; intros H; cbn; [done|]. apply le_plain; auto. Qed.
  Lemma letter_no_end c : e_letter E c = true -> no_end c.
  Proof.
    intros H. repeat split; intros ->; [rewrite letter_false in H by done; done|..];
      [destruct (wf_line_end E W 133%N)|destruct (wf_line_end E W 8232%N)]; auto; congruence.
  Qed.
  Lemma digit_no_end c : e_digit E c = true -> no_end c.
  Proof.
    intros H. repeat split; intros ->; [rewrite digit_false in H by done; done|..];
      [destruct (wf_line_end E W 133%N)|destruct (wf_line_end E W 8232%N)]; auto; congruence.
  Qed.
  Lemma bad_ref_line_ends r t : bad_ref E r -> line_ends_normalised r t -> bad_ref E t.
  Proof.
    intros Hb Ht.
    assert (G : forall w q, Forall no_end w -> r = w ++ q -> exists q', t = w ++ q').
    { intros w q Hw ->. exists (normalize_eol q).
      eapply line_ends_fun; [exact Ht|]. apply line_ends_pre; [done|]. apply normalize_eol_spec. }
    destruct Hb as [(p & x & w & q & -> & Hp & Hx & Hw)|[(ds & q & (-> & Hne & Hd) & Hbad)|(ds & q & (-> & Hne & Hd) & Hbad)]].
    - left. destruct (G (p :: x :: w ++ [59%N]) q) as [q' ->].
      + constructor; [destruct Hp; subst; by repeat split|]. constructor.
        { destruct Hx as [Hx| ->]; [by apply letter_no_end|by repeat split]. }
        apply Forall_app. split; [|repeat constructor; done].
        eapply Forall_impl; [exact Hw|]. intros c [Hc|[Hc|[->|[->| ->]]]]; [by apply letter_no_end|by apply digit_no_end|by repeat split..].
      + cbn. by rewrite <- app_assoc.
      + exists p, x, w, q'. split; [|done]. cbn. by rewrite <- app_assoc.
    - right. left. destruct (G (38%N :: 35%N :: ds ++ [59%N]) q) as [q' ->].
      + constructor; [by repeat split|]. constructor; [by repeat split|].
        apply Forall_app. split; [|repeat constructor; done].
        eapply Forall_impl; [exact Hd|]. apply digit_no_end.
      + cbn. by rewrite <- app_assoc.
      + exists ds, q'. split; [|done]. split; [|done]. cbn. by rewrite <- app_assoc.
    - right. right. destruct (G (38%N :: 35%N :: 120%N :: ds ++ [59%N]) q) as [q' ->].
      + constructor; [by repeat split|]. constructor; [by repeat split|]. constructor; [by repeat split|].
        apply Forall_app. split; [|repeat constructor; done].
        eapply Forall_impl; [exact Hd|]. unfold hex_char, ascii_digit, no_end. intros. lia.
      + cbn. by rewrite <- app_assoc.
      + exists ds, q'. split; [|done]. split; [|done]. cbn. by rewrite <- app_assoc.
  Qed.
  Lemma bad_anywhere_blocked raw p r : raw = p ++ r -> bad_ref E r -> blocked E (normalize_eol raw).
  Proof.
    intros -> Hb. destruct (bad_head r Hb) as (c & t & -> & Hc).
    assert (He : normalize_eol (p ++ c :: t) = normalize_eol p ++ normalize_eol (c :: t)).
    { eapply line_ends_fun; [apply normalize_eol_spec|].
      apply line_ends_app; [apply normalize_eol_spec|destruct Hc; subst; discriminate..|apply normalize_eol_spec]. }
    rewrite He. apply bad_app_blocked. eapply bad_ref_line_ends; [exact Hb|]. apply normalize_eol_spec.
  Qed.
  (** Conversely, nothing bad can appear by normalising line ends. *)
  Lemma line_ends_split_back r l : line_ends_normalised r l -> forall p q c, l = p ++ c :: q -> c = 38%N \/ c = 37%N ->
    exists p' q', r = p' ++ c :: q' /\ line_ends_normalised (c :: q') (c :: q).
  Proof.
    induction 1 as [|s t H IH|s t H IH|s t Hn H IH|s t H IH|s t H IH|x s t H1 H2 H3 H IH]; intros p q c Heq Hc.
    - destruct p; discriminate.
    - destruct p as [|y p]; cbn in Heq; injection Heq as Hy Heq; [subst; destruct Hc; discriminate|].
      destruct (IH p q c Heq Hc) as (p' & q' & -> & Hq). by exists (13%N :: 10%N :: p'), q'.
    - destruct p as [|y p]; cbn in Heq; injection Heq as Hy Heq; [subst; destruct Hc; discriminate|].
      destruct (IH p q c Heq Hc) as (p' & q' & -> & Hq). by exists (13%N :: 133%N :: p'), q'.
    - destruct p as [|y p]; cbn in Heq; injection Heq as Hy Heq; [subst; destruct Hc; discriminate|].
      destruct (IH p q c Heq Hc) as (p' & q' & -> & Hq). by exists (13%N :: p'), q'.
    - destruct p as [|y p]; cbn in Heq; injection Heq as Hy Heq; [subst; destruct Hc; discriminate|].
      destruct (IH p q c Heq Hc) as (p' & q' & -> & Hq). by exists (133%N :: p'), q'.
    - destruct p as [|y p]; cbn in Heq; injection Heq as Hy Heq; [subst; destruct Hc; discriminate|].
      destruct (IH p q c Heq Hc) as (p' & q' & -> & Hq). by exists (8232%N :: p'), q'.
    - destruct p as [|y p]; cbn in Heq; injection Heq as Hy Heq.
      + subst. exists [], s. split; [done|]. by apply le_plain.
      + destruct (IH p q c Heq Hc) as (p' & q' & -> & Hq). by exists (x :: p'), q'.
  Qed.
  Lemma line_ends_pre_back w : Forall (fun c => no_end c /\ c <> 10%N) w -> forall r t, line_ends_normalised r (w ++ t) ->
    exists s, r = w ++ s /\ line_ends_normalised s t.
  Proof.
    induction 1 as [|c w [[H1 [H2 H3]] H4] _ IH]; intros r t H; cbn in *; [eauto|].
    inversion H; subst; try congruence.
    destruct (IH _ _ H10) as (s' & -> & ?). eauto.
  Qed.
  Lemma bad_back r t : line_ends_normalised r t -> bad_ref E t -> bad_ref E r.
  Proof.
    intros Ht Hb.
    assert (LF : e_letter E 10 = false) by by apply letter_false. assert (DF : e_digit E 10 = false) by by apply digit_false.
    assert (L10 : forall c, e_letter E c = true -> c <> 10%N) by (intros c Hc ->; congruence).
    assert (D10 : forall c, e_digit E c = true -> c <> 10%N) by (intros c Hc ->; congruence).
    destruct Hb as [(p & x & w & q & -> & Hp & Hx & Hw)|[(ds & q & (-> & Hne & Hd) & Hbad)|(ds & q & (-> & Hne & Hd) & Hbad)]].
    - left. destruct (line_ends_pre_back (p :: x :: w ++ [59%N])) with (r := r) (t := q) as (s & -> & _).
      + constructor; [destruct Hp; subst; by repeat split|]. constructor.
        { destruct Hx as [Hx| ->]; [split; [by apply letter_no_end|by apply L10]|by repeat split]. }
        apply Forall_app. split; [|repeat constructor; done].
        eapply Forall_impl; [exact Hw|]. intros c [Hc|[Hc|[->|[->| ->]]]];
          [split; [by apply letter_no_end|by apply L10]|split; [by apply digit_no_end|by apply D10]|by repeat split..].
      + cbn. by rewrite <- app_assoc.
      + exists p, x, w, s. split; [|done]. cbn. by rewrite <- app_assoc.
    - right. left. destruct (line_ends_pre_back (38%N :: 35%N :: ds ++ [59%N])) with (r := r) (t := q) as (s & -> & _).
      + constructor; [by repeat split|]. constructor; [by repeat split|].
        apply Forall_app. split; [|repeat constructor; done].
        eapply Forall_impl; [exact Hd|]. intros c Hc. split; [by apply digit_no_end|by apply D10].
      + cbn. by rewrite <- app_assoc.
      + exists ds, s. split; [|done]. split; [|done]. cbn. by rewrite <- app_assoc.
    - right. right. destruct (line_ends_pre_back (38%N :: 35%N :: 120%N :: ds ++ [59%N])) with (r := r) (t := q) as (s & -> & _).
      + constructor; [by repeat split|]. constructor; [by repeat split|]. constructor; [by repeat split|].
        apply Forall_app. split; [|repeat constructor; done].
        eapply Forall_impl; [exact Hd|]. unfold hex_char, ascii_digit, no_end. intros. lia.
      + cbn. by rewrite <- app_assoc.
      + exists ds, s. split; [|done]. split; [|done]. cbn. by rewrite <- app_assoc.
  Qed.
  Lemma not_bad_expands raw : (forall p r, raw = p ++ r -> ~ bad_ref E r) -> exists t, expands E (normalize_eol raw) t.
  Proof.
    intros H. destruct (expands_or_blocked (normalize_eol raw)) as [Ht|Hb]; [done|exfalso].
    apply blocked_bad in Hb as (p & r & He & Hbad).
    pose proof (bad_head r Hbad) as (c & q & -> & Hc).
    destruct (line_ends_split_back _ _ (normalize_eol_spec raw) p q c He Hc) as (p' & q' & -> & Hq).
    eapply H; [reflexivity|]. eapply bad_back; [exact Hq|done].
  Qed.
End wf.
