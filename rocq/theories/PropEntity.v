(** * C62: normalisation with entities *)
From Coq Require Import Lia.
From Verif Require Import SpecEntity ProofText ProofAttr History.

Section ent.
  Context (E : env) (W : wf_env E) (R : str -> option str) (cd : bool).
  Notation norm k v := (normalize_attribute_value k E (fun m => Ok (R m)) cd v).
  Let repl (k : nat) (tok : token) : res str :=
    match tok with
    | TEntity m => match R m with None => Panic PExplicit | Some x => norm k x end
    | TChar m => char_from_entity m
    | THex m => char_from_entity m
    | TWs => Ok [C_SPACE]
    end.
  Let finish (y : str) : str := if cd then y else trim_matches 32 y.

  Lemma norm_S k v : norm (S k) v = (let? y := scan E (repl k) (normalize_eol v) 0 in Ok (finish y)).
  Proof. cbn [normalize_attribute_value]. unfold repl, finish. by destruct cd. Qed.
  Lemma finish_spec y : finished cd y (finish y).
  Proof. unfold finished, finish. destruct cd; [done|]. apply trim_matches_spec. Qed.
  Lemma finished_fun y z : finished cd y z -> z = finish y.
  Proof. unfold finished, finish. destruct cd; [done|]. intros H. by apply (trimmed_fun _ _ _ H), trim_matches_spec. Qed.

  Lemma named_match s m r : named_at E s m r -> find_token E s = Some (TEntity m, length m).
  Proof.
    intros (p & x & w & -> & -> & Hp & Hx & Hw). unfold find_token. cbn [app]. rewrite <- app_assoc. cbn [app match_entity].
    assert (((p =? C_AMP) || (p =? 37))%N && is_entity_start E x = true) as ->.
    { rewrite andb_true_iff, orb_true_iff, !N.eqb_eq, is_entity_start_spec. done. }
    rewrite span_app; [|eapply Forall_impl; [exact Hw|]; intros c Hc; by apply is_entity_char_spec|exact (semi_not_entity E W)].
    cbn. rewrite app_length. cbn. do 3 f_equal. lia.
  Qed.
  Lemma named_split s : named_ref E s <-> exists m r, named_at E s m r.
  Proof.
    split.
    - intros (p & x & w & r & -> & Hp & Hx & Hw). exists (p :: x :: w ++ [59%N]), r. exists p, x, w. split; [cbn; by rewrite <- app_assoc|done].
    - intros (m & r & p & x & w & -> & -> & H). exists p, x, w, r. split; [cbn; by rewrite <- app_assoc|done].
  Qed.
  Lemma scan_named k s m r : named_at E s m r ->
    scan E (repl k) s 0 = (let? z := repl k (TEntity m) in let? t := scan E (repl k) r 0 in Ok (z ++ t)).
  Proof.
    intros H. pose proof (named_match _ _ _ H) as Ht. destruct H as (p & x & w & -> & Hm & _).
    assert (Hs : exists t, m ++ r = p :: t /\ drop (length m - 1) t = r).
    { rewrite Hm. cbn. eexists. split; [done|]. apply (drop_app (x :: w ++ [59%N]) r). }
    destruct Hs as (t & Hs & Hd). rewrite Hs in *. rewrite scan_unfold, Ht. rewrite (scan_skip E (repl k) t), Hd. done.
  Qed.
  Lemma scan_piece k s z r : piece E s z r -> scan E (repl k) s 0 = (let? t := scan E (repl k) r 0 in Ok (z ++ t)).
  Proof.
    intros [c s' Hw|s' ds r' Hr Ha Hs|s' ds r' Hr Hs|c s' Hw Hn].
    - rewrite scan_unfold, (find_token_white E) by done. done.
    - rewrite (scan_dec E W (repl k)) with (1 := fun _ => eq_refl) (2 := Hr). destruct Hr as (_ & Hne & Hd). by rewrite (proj1 (char_from_entity_dec E W ds Hne Hd)) by done.
    - rewrite (scan_hex E W (repl k)) with (1 := fun _ => eq_refl) (2 := Hr). destruct Hr as (_ & Hne & Hd). by rewrite (proj1 (char_from_entity_hex ds Hne Hd)) by done.
    - rewrite scan_unfold, (find_token_plain E) by done. done.
  Qed.
  Lemma scan_bad k s : bad_number E s -> exists p, scan E (repl k) s 0 = Panic p.
  Proof.
    intros [(ds & r & Hr & Hb)|(ds & r & Hr & Hb)].
    - rewrite (scan_dec E W (repl k)) with (1 := fun _ => eq_refl) (2 := Hr). destruct Hr as (_ & Hne & Hd).
      destruct (proj2 (char_from_entity_dec E W ds Hne Hd) Hb) as [p ->]. cbn. eauto.
    - rewrite (scan_hex E W (repl k)) with (1 := fun _ => eq_refl) (2 := Hr). destruct Hr as (_ & Hne & Hd).
      destruct (proj2 (char_from_entity_hex ds Hne Hd) Hb) as [p ->]. cbn. eauto.
  Qed.
  Lemma start_cases s : s = [] \/ (exists z r, piece E s z r /\ (length r < length s)%nat) \/ bad_number E s \/
    exists m r, named_at E s m r /\ (length r < length s)%nat.
  Proof.
    destruct s as [|c s]; [by left|]. right.
    destruct (match_entity E (c :: s)) as [[m k]|] eqn:H1.
    { right; right. destruct (proj1 (named_split (c :: s))) as (m' & r & H); [by eapply match_entity_some|]. exists m', r. split; [done|].
      destruct H as (p & x & w & -> & -> & _). rewrite app_length. cbn. lia. }
    destruct (match_char E (c :: s)) as [[m k]|] eqn:H2.
    { apply match_char_some in H2 as (ds & r & Hr & _). pose proof (ref_shorter_dec E _ _ _ Hr) as Hl.
      assert (Hd : Decision (Forall ascii_digit ds)).
      { apply Forall_dec. intros x. unfold Decision. destruct (digit_val 10 x) eqn:Hx; [left|right]; rewrite <- digit_val_10; congruence. }
      destruct Hd as [Ha|Ha]; [destruct (scalar_dec (number 10 ds)) as [Hs|Hs]|].
      - left. exists [number 10 ds], r. split; [by eapply pc_dec|done].
      - right; left. left. exists ds, r. split; [done|]. tauto.
      - right; left. left. exists ds, r. split; [done|]. tauto. }
    destruct (match_hex (c :: s)) as [[m k]|] eqn:H3.
    { apply match_hex_some in H3 as (ds & r & Hr & _). pose proof (ref_shorter_hex _ _ _ Hr) as Hl. destruct (scalar_dec (number 16 ds)) as [Hs|Hs].
      - left. exists [number 16 ds], r. split; [by eapply pc_hex|done].
      - right; left. right. by exists ds, r. }
    left. assert (Hno : no_ref E (c :: s)).
    { split; [|split].
      - intros Hx. apply (match_entity_named E W) in Hx as (? & ? & Hx & _). congruence.
      - intros ds r Hx. apply (match_char_dec E W) in Hx. congruence.
      - intros ds r Hx. apply match_hex_hex in Hx. congruence. }
    destruct (white_dec c) as [Hw|Hw]; [exists [32%N], s|exists [c], s]; (split; [by constructor|cbn; lia]).
  Qed.

  (** More fuel changes nothing once there is an outcome. *)
  Lemma scan_mono (r1 r2 : token -> res str) : (forall t, r1 t <> Diverge -> r2 t = r1 t) ->
    forall s n, scan E r1 s n <> Diverge -> scan E r2 s n = scan E r1 s n.
  Proof.
    intros Hr. induction s as [|c s IH]; intros n H; [done|]. cbn in *. destruct n as [|n]; [|by apply IH].
    destruct (find_token E (c :: s)) as [[tok k]|].
    - destruct (r1 tok) as [x|e|p|] eqn:Ht; cbn in *; [|rewrite Hr; rewrite Ht; done|rewrite Hr; rewrite Ht; done|done].
      rewrite Hr by (rewrite Ht; done). rewrite Ht. cbn. rewrite IH; [done|]. intros Hd. by rewrite Hd in H.
    - rewrite IH; [done|]. intros Hd. by rewrite Hd in H.
  Qed.
  Lemma norm_mono1 k : forall v, norm k v <> Diverge -> norm (S k) v = norm k v.
  Proof.
    induction k as [|k IH]; intros v H; [done|]. rewrite (norm_S (S k)), (norm_S k). rewrite norm_S in H.
    rewrite (scan_mono (repl k) (repl (S k))); [done| |intros Hd; by rewrite Hd in H].
    intros [m|m|m|] Ht; try done. unfold repl in *. destruct (R m); [|done]. by apply IH.
  Qed.
  Lemma norm_mono k k' v : (k <= k')%nat -> norm k v <> Diverge -> norm k' v = norm k v.
  Proof. induction 1 as [|k' _ IH]; [done|]. intros H. rewrite norm_mono1; [by apply IH|]. by rewrite IH. Qed.
  Lemma repl_mono k k' s : (k <= k')%nat -> scan E (repl k) s 0 <> Diverge -> scan E (repl k') s 0 = scan E (repl k) s 0.
  Proof.
    intros Hk. apply scan_mono. intros [m|m|m|] Ht; try done. unfold repl in *. destruct (R m); [|done]. by apply norm_mono.
  Qed.

  (** What each outcome says. *)
  Lemma outcome k : forall s, match scan E (repl k) s 0 with
    | Ok t => walks E R cd s t | Panic _ => stuck E R cd s | Err _ => False
    | Diverge => exists l, enters E R cd s l /\ forall j, (S j <= k)%nat -> scan E (repl j) l 0 = Diverge end.
  Proof.
    induction k as [k IHk] using lt_wf_ind. intros s. remember (length s) as n eqn:Hn. revert s Hn. induction n as [n IH] using lt_wf_ind. intros s Hn.
    destruct (start_cases s) as [->|[(z & r & Hp & Hl)|[Hb|(m & r & Hm & Hl)]]].
    - cbn. constructor.
    - rewrite (scan_piece _ _ _ _ Hp). specialize (IH (length r) ltac:(lia) r eq_refl). destruct (scan E (repl k) r 0) as [t|e|p|]; cbn.
      + by eapply wk_piece.
      + done.
      + by eapply st_piece.
      + destruct IH as (l & Hl' & Hd). exists l. split; [by eapply en_piece|done].
    - destruct (scan_bad k s Hb) as [p ->]. by apply st_number.
    - rewrite (scan_named _ _ _ _ Hm). unfold repl at 1. destruct (R m) as [x|] eqn:HR; [|cbn; by eapply st_unknown].
      pose proof (normalize_eol_spec x) as He. destruct k as [|k].
      { cbn. exists (normalize_eol x). split; [by eapply en_here|]. intros j Hj. lia. }
      rewrite norm_S. pose proof (IHk k ltac:(lia) (normalize_eol x)) as Hx. destruct (scan E (repl k) (normalize_eol x) 0) as [y|e|p|] eqn:Hs; cbn.
      + specialize (IH (length r) ltac:(lia) r eq_refl). destruct (scan E (repl (S k)) r 0) as [t|e|p|]; cbn.
        * eapply wk_named; eauto using finish_spec.
        * done.
        * by eapply st_named.
        * destruct IH as (l & Hl' & Hd). exists l. split; [by eapply en_named|done].
      + done.
      + by eapply st_inside.
      + exists (normalize_eol x). split; [by eapply en_here|]. intros j Hj. destruct (scan E (repl j) (normalize_eol x) 0) as [y|e|p|] eqn:Hj'; [exfalso..|done].
        all: assert (Hjk : (j <= k)%nat) by lia; rewrite (repl_mono _ _ (normalize_eol x) Hjk) in Hs by (rewrite Hj'; done); congruence.
  Qed.
  Lemma scan_len_walks s t : walks E R cd s t -> exists k, scan E (repl k) s 0 = Ok t.
  Proof.
    induction 1 as [|s z r t Hp H [k IH]|s m r x l y z t Hm HR He Hl [k1 IH1] Hf H [k2 IH2]].
    - by exists 0%nat.
    - exists k. by rewrite (scan_piece _ _ _ _ Hp), IH.
    - exists (S (Nat.max k1 k2)). rewrite (scan_named _ _ _ _ Hm). unfold repl at 1. rewrite HR, norm_S. rewrite (line_ends_fun _ _ _ (normalize_eol_spec x) He).
      rewrite (repl_mono k1) by (lia || (rewrite IH1; done)). rewrite IH1. cbn [rbind]. rewrite (repl_mono k2) by (lia || (rewrite IH2; done)). rewrite IH2. cbn.
      by rewrite (finished_fun _ _ Hf).
  Qed.
  Lemma scan_stuck s : stuck E R cd s -> exists k p, scan E (repl k) s 0 = Panic p.
  Proof.
    induction 1 as [s Hb|s m r Hm HR|s m r x l Hm HR He H (k & p & IH)|s z r Hp H (k & p & IH)|s m r x l y Hm HR He Hl H (k & p & IH)].
    - destruct (scan_bad 0 s Hb) as [p Hp]. eauto.
    - exists 0%nat, PExplicit. rewrite (scan_named _ _ _ _ Hm). unfold repl. by rewrite HR.
    - exists (S k), p. rewrite (scan_named _ _ _ _ Hm). unfold repl at 1. rewrite HR, norm_S, (line_ends_fun _ _ _ (normalize_eol_spec x) He), IH. done.
    - exists k, p. by rewrite (scan_piece _ _ _ _ Hp), IH.
    - destruct (scan_len_walks _ _ Hl) as [k1 IH1]. exists (S (Nat.max k k1)), p. rewrite (scan_named _ _ _ _ Hm). unfold repl at 1.
      rewrite HR, norm_S, (line_ends_fun _ _ _ (normalize_eol_spec x) He). rewrite (repl_mono k1) by (lia || (rewrite IH1; done)). rewrite IH1. cbn [rbind].
      rewrite (repl_mono k) by (lia || (rewrite IH; done)). by rewrite IH.
  Qed.
  Lemma walks_no_panic k s t p : walks E R cd s t -> scan E (repl k) s 0 <> Panic p.
  Proof.
    intros H Hp. destruct (scan_len_walks _ _ H) as [k' Hk]. pose proof (repl_mono k (Nat.max k k') s) as H1. pose proof (repl_mono k' (Nat.max k k') s) as H2.
    rewrite Hp in H1. rewrite Hk in H2. rewrite H1 in H2 by (lia || done). discriminate H2; (lia || done).
  Qed.

  Lemma value_iff v w : (exists k, norm k v = Ok w) <-> normalised E R cd v w.
  Proof.
    split.
    - intros [[|k] H]; [done|]. rewrite norm_S in H. pose proof (outcome k (normalize_eol v)) as Ho. destruct (scan E (repl k) (normalize_eol v) 0) as [y|e|p|]; try done.
      injection H as <-. exists (normalize_eol v), y. split; [apply normalize_eol_spec|]. split; [done|apply finish_spec].
    - intros (l & y & Hl & Hy & Hf). destruct (scan_len_walks _ _ Hy) as [k Hk]. exists (S k). rewrite norm_S, (line_ends_fun _ _ _ (normalize_eol_spec v) Hl), Hk. cbn.
      by rewrite (finished_fun _ _ Hf).
  Qed.
  Lemma panic_iff v : (exists k p, norm k v = Panic p) <-> exists l, line_ends_normalised v l /\ stuck E R cd l.
  Proof.
    split.
    - intros ([|k] & p & H); [done|]. rewrite norm_S in H. pose proof (outcome k (normalize_eol v)) as Ho. destruct (scan E (repl k) (normalize_eol v) 0) as [y|e|q|]; try done.
      exists (normalize_eol v). split; [apply normalize_eol_spec|done].
    - intros (l & Hl & Hs). destruct (scan_stuck _ Hs) as (k & p & Hk). exists (S k), p. by rewrite norm_S, (line_ends_fun _ _ _ (normalize_eol_spec v) Hl), Hk.
  Qed.
  Lemma no_error k v e : norm k v <> Err e.
  Proof.
    destruct k as [|k]; [done|]. rewrite norm_S. pose proof (outcome k (normalize_eol v)) as Ho. by destruct (scan E (repl k) (normalize_eol v) 0).
  Qed.
  Lemma endless (P : str -> Prop) : (forall s, P s -> exists l, enters E R cd s l /\ P l) -> forall k s, P s -> scan E (repl k) s 0 = Diverge.
  Proof.
    intros HP. induction k as [k IHk] using lt_wf_ind. intros s Hs. destruct (HP s Hs) as (l & He & Hl). clear Hs.
    induction He as [s m r x l Hm HR He|s z r l Hp _ IH|s m r x l y l' Hm HR He Hw _ IH].
    - rewrite (scan_named _ _ _ _ Hm). unfold repl at 1. rewrite HR. destruct k as [|k]; [done|]. rewrite norm_S, (line_ends_fun _ _ _ (normalize_eol_spec x) He).
      rewrite (IHk k) by (lia || done). done.
    - rewrite (scan_piece _ _ _ _ Hp), (IH Hl). done.
    - rewrite (scan_named _ _ _ _ Hm). unfold repl at 1. rewrite HR. destruct k as [|k]; [done|]. rewrite norm_S, (line_ends_fun _ _ _ (normalize_eol_spec x) He).
      pose proof (outcome k l) as Ho. destruct (scan E (repl k) l 0) as [y'|e|p|] eqn:Hk; cbn; [by rewrite (IH Hl)|done|by destruct (walks_no_panic k l y p Hw)|done].
  Qed.
  (** With entities that only refer to entities of smaller rank the function returns. *)
  Lemma enters_named s l : enters E R cd s l -> exists a m r x, s = a ++ m ++ r /\ named_at E (m ++ r) m r /\ R m = Some x /\ line_ends_normalised x l.
  Proof.
    induction 1 as [s m r x l Hm HR He|s z r l Hp _ IH|s m r x l y l' Hm HR He Hw _ IH].
    - exists [], m, r, x. pose proof Hm as (p & y & w & -> & _). done.
    - destruct IH as (a & m & r' & x & -> & H). assert (Ha : exists b, s = b ++ a ++ m ++ r').
      { inversion Hp as [c s' Hw|s' ds r0 (Hs & _)|s' ds r0 (Hs & _)|c s' Hw Hn]; subst.
        - by exists [c].
        - exists (38%N :: 35%N :: ds ++ [59%N]). cbn. by rewrite <- app_assoc.
        - exists (38%N :: 35%N :: 120%N :: ds ++ [59%N]). cbn. by rewrite <- app_assoc.
        - by exists [c]. }
      destruct Ha as [b ->]. exists (b ++ a), m, r', x. by rewrite <- app_assoc.
    - destruct IH as (a & m' & r' & x' & -> & H). exists (m ++ a), m', r', x'. destruct Hm as (p & z & w & -> & _). by rewrite <- app_assoc.
  Qed.
  Lemma ranked_ends (rank : str -> nat) : (forall m x l a m' r, R m = Some x -> line_ends_normalised x l -> l = a ++ m' ++ r -> named_at E (m' ++ r) m' r -> (rank m' < rank m)%nat) ->
    forall n s, (forall a m r, s = a ++ m ++ r -> named_at E (m ++ r) m r -> (rank m < n)%nat) -> scan E (repl n) s 0 <> Diverge.
  Proof.
    intros HR. induction n as [|n IH]; intros s Hs Hd.
    - pose proof (outcome 0 s) as Ho. rewrite Hd in Ho. destruct Ho as (l & He & _). apply enters_named in He as (a & m & r & x & -> & Hm & _). specialize (Hs a m r eq_refl Hm). lia.
    - pose proof (outcome (S n) s) as Ho. rewrite Hd in Ho. destruct Ho as (l & He & Hdl). apply enters_named in He as (a & m & r & x & -> & Hm & Hx & Hl).
      apply (IH l); [|apply Hdl; lia]. intros a' m' r' -> Hm'. specialize (HR m x _ a' m' r' Hx Hl eq_refl Hm'). specialize (Hs a m r eq_refl Hm). lia.
  Qed.
End ent.

(** The function as a partial function of the value: [k] bounds the depth of nested entities. *)
Definition normalise (k : nat) (E : env) (R : str -> option str) (cd : bool) (v : str) : res str :=
  normalize_attribute_value k E (fun m => Ok (R m)) cd v.

Theorem C62_value : forall E R cd v w, wf_env E -> ((exists k, normalise k E R cd v = Ok w) <-> normalised E R cd v w).
Proof. intros. by apply value_iff. Qed.
Print Assumptions C62_value.
Theorem C62_panics : forall E R cd v, wf_env E ->
  ((exists k p, normalise k E R cd v = Panic p) <-> exists l, line_ends_normalised v l /\ stuck E R cd l).
Proof. intros. by apply panic_iff. Qed.
Print Assumptions C62_panics.
Theorem C62_no_error : forall E R cd v k e, wf_env E -> normalise k E R cd v <> Err e.
Proof. intros. by apply no_error. Qed.
Print Assumptions C62_no_error.
Theorem C62_depth_irrelevant : forall E R cd v k k', (k <= k')%nat -> normalise k E R cd v <> Diverge -> normalise k' E R cd v = normalise k E R cd v.
Proof. intros. by apply norm_mono. Qed.
Print Assumptions C62_depth_irrelevant.
(** So the value, if any, is determined. *)
Theorem C62_determined : forall E R cd v w w', wf_env E -> normalised E R cd v w -> normalised E R cd v w' -> w = w'.
Proof.
  intros E R cd v w w' W H1 H2. apply (C62_value _ _ _ _ _ W) in H1 as [k1 H1]. apply (C62_value _ _ _ _ _ W) in H2 as [k2 H2].
  pose proof (C62_depth_irrelevant E R cd v k1 (Nat.max k1 k2) ltac:(lia)) as G1. pose proof (C62_depth_irrelevant E R cd v k2 (Nat.max k1 k2) ltac:(lia)) as G2.
  rewrite H1 in G1. rewrite H2 in G2. rewrite G1 in G2 by done. assert (H : Ok w = Ok w') by (by apply G2). by injection H.
Qed.
Print Assumptions C62_determined.
(** An entity that leads back to itself: no depth is enough. *)
Theorem C62_endless : forall E R cd (P : str -> Prop) v l, wf_env E ->
  (forall s, P s -> exists l, enters E R cd s l /\ P l) -> line_ends_normalised v l -> P l ->
  forall k, normalise k E R cd v = Diverge.
Proof.
  intros E R cd P v l W HP Hl Hp [|k]; [done|]. unfold normalise. rewrite norm_S. rewrite (line_ends_fun _ _ _ (normalize_eol_spec v) Hl).
  by rewrite (endless E W R cd P HP k l Hp).
Qed.
Print Assumptions C62_endless.
(** Entities that refer only to entities of smaller rank: some depth is enough. *)
Theorem C62_ends : forall E R cd rank v, wf_env E ->
  (forall m x l a m' r, R m = Some x -> line_ends_normalised x l -> l = a ++ m' ++ r -> named_at E (m' ++ r) m' r -> (rank m' < rank m)%nat) ->
  exists k, normalise k E R cd v <> Diverge.
Proof.
  intros E R cd rank v W HR.
  assert (Hb : forall s, exists n, forall a m r, s = a ++ m ++ r -> named_at E (m ++ r) m r -> (rank m < n)%nat).
  { assert (Hm : forall s m r m' r', named_at E s m r -> named_at E s m' r' -> m = m').
    { intros s m r m' r' H1 H2. apply (named_match E W) in H1. apply (named_match E W) in H2. congruence. }
    induction s as [|c s [n IH]].
    - exists 0%nat. intros a m r H (p & x & w & _ & -> & _). by destruct a.
    - destruct (start_cases E W R cd (c :: s)) as [?|[(z & r0 & Hp & _)|[Hbad|(m0 & r0 & H0 & _)]]]; [done| | |].
      + exists n. intros [|a0 a] m r H Hn; [|injection H as -> H; by eapply IH]. cbn in H. rewrite <- H in Hn. exfalso. pose proof (proj2 (named_split E (c :: s)) (ex_intro _ m (ex_intro _ r Hn))) as Hr.
        inversion Hp as [? ? Hw|? ds ? Hd|? ds ? Hd|? ? Hw Hno]; subst.
        * destruct Hr as (p & x & w & q & Hq & Hpp & _). injection Hq as -> _. unfold white in Hw. lia.
        * by eapply (named_not_dec E W).
        * by eapply (named_not_hex E W).
        * by destruct Hno.
      + exists n. intros [|a0 a] m r H Hn; [|injection H as -> H; by eapply IH]. cbn in H. rewrite <- H in Hn. exfalso. pose proof (proj2 (named_split E (c :: s)) (ex_intro _ m (ex_intro _ r Hn))) as Hr.
        destruct Hbad as [(ds & q & Hd & _)|(ds & q & Hd & _)]; [by eapply (named_not_dec E W)|by eapply (named_not_hex E W)].
      + exists (Nat.max n (S (rank m0))). intros [|a0 a] m r H Hn.
        * cbn in H. rewrite <- H in Hn. rewrite (Hm _ _ _ _ _ Hn H0). lia.
        * injection H as -> H. specialize (IH a m r H Hn). lia. }
  destruct (Hb (normalize_eol v)) as [n Hn]. exists (S n). unfold normalise. rewrite norm_S. pose proof (ranked_ends E W R cd rank HR n (normalize_eol v) Hn) as Hd.
  by destruct (scan _ _ _ _).
Qed.
Print Assumptions C62_ends.

(** The example of the test in text.rs 548-600, two entities that refer to each other, and an unknown one. *)
Definition ex_ent (m : str) : option str :=
  if str_eqb m (lit "&pound;") then Some (lit "&#163;") else if str_eqb m (lit "&both;") then Some (lit " &pound; , &pound; ")
  else if str_eqb m (lit "&x;") then Some (lit "a&y;b") else if str_eqb m (lit "%y;") then Some (lit "&x;") else if str_eqb m (lit "&y;") then Some (lit "&#65;&x;") else None.
Example C62_example_value : normalise 3 env0 ex_ent false (lit " &both;!&#10; ") = Ok [163%N; 32%N; 44%N; 32%N; 163%N; 33%N; 10%N] /\
  normalise 3 env0 ex_ent true (lit "&both;") = Ok (32%N :: 163%N :: lit " , " ++ 163%N :: lit " ") /\ normalise 3 env0 ex_ent true (lit "a&no;") = Panic PExplicit.
Proof. by vm_compute. Qed.
Lemma named_letters p x w r : (p = 38%N \/ p = 37%N) -> ascii_letter x -> Forall ascii_letter w -> named_at env0 (p :: x :: w ++ 59%N :: r) (p :: x :: w ++ [59%N]) r.
Proof.
  assert (L : forall c, ascii_letter c -> e_letter env0 c = true).
  { intros c Hc. unfold ascii_letter in Hc. rewrite (wf_letter _ wf_env0) by lia. unfold is_ascii_uppercase, is_ascii_lowercase. apply orb_true_iff. rewrite !in_range_true. lia. }
  intros Hp Hx Hw. exists p, x, w. split; [cbn; by rewrite <- app_assoc|]. split; [done|]. split; [done|]. split; [left; by apply L|].
  eapply Forall_impl; [exact Hw|]. intros c Hc. left. by apply L.
Qed.
Example C62_example_endless : forall k, normalise k env0 ex_ent true (lit "&x;") = Diverge.
Proof.
  assert (Hy : named_at env0 (lit "&y;b") (lit "&y;") (lit "b")) by (apply (named_letters 38 121 [] (lit "b")); [by left|unfold ascii_letter; lia|constructor]).
  assert (Hx : named_at env0 (lit "&x;") (lit "&x;") []) by (apply (named_letters 38 120 [] []); [by left|unfold ascii_letter; lia|constructor]).
  assert (LE : forall s, normalize_eol s = s -> line_ends_normalised s s) by (intros s Hs; rewrite <- Hs at 2; apply normalize_eol_spec).
  apply (C62_endless env0 ex_ent true (fun s => s = lit "&x;" \/ s = lit "a&y;b" \/ s = lit "&#65;&x;") (lit "&x;") (lit "&x;") wf_env0); [|by apply LE|by left].
  intros s [->|[->| ->]].
  - exists (lit "a&y;b"). split; [|by right; left]. eapply en_here; [exact Hx|by vm_compute|by apply LE].
  - exists (lit "&#65;&x;"). split; [|by right; right]. apply (en_piece _ _ _ (lit "a&y;b") [97%N] (lit "&y;b")).
    + apply pc_plain; [unfold white; lia|]. apply no_ref_other; lia.
    + eapply en_here; [exact Hy|by vm_compute|by apply LE].
  - exists (lit "a&y;b"). split; [|by right; left]. apply (en_piece _ _ _ (lit "&#65;&x;") [65%N] (lit "&x;")).
    + apply (pc_dec _ (lit "&#65;&x;") [54%N; 53%N]).
      * split; [by vm_compute|]. split; [done|]. repeat (constructor; [apply (ascii_digit_digit env0 wf_env0); unfold ascii_digit; lia|]). constructor.
      * repeat (constructor; [unfold ascii_digit; lia|]). constructor.
      * split; vm_compute; [done|]. intros [H _]. by apply H.
    + eapply en_here; [exact Hx|by vm_compute|by apply LE].
Qed.
(** A resolver with one entity without further references meets the hypothesis of [C62_ends]. *)
Example C62_example_ends : exists k, normalise k env0 (fun m => if str_eqb m (lit "&a;") then Some (lit "x") else None) false (lit "&a;&b;") <> Diverge.
Proof.
  apply (C62_ends env0 _ false (fun _ => 0%nat) _ wf_env0). cbv beta. intros m x l a m' r Hm Hl -> Hn. exfalso. destruct (str_eqb m (lit "&a;")); [|done].
  injection Hm as <-. assert (Hl' : a ++ m' ++ r = lit "x") by (exact (line_ends_fun _ _ _ Hl (normalize_eol_spec (lit "x")))).
  destruct Hn as (p & y & w & _ & -> & _). apply (f_equal length) in Hl'. rewrite !app_length in Hl'. cbn in Hl'. lia.
Qed.
