(** * Property C84: events are read one after the other *)
From Coq Require Import Lia.
From Verif Require Import SpecStream ProofStream ProofReader SpecTree ProofInv PropParse PropTree.

Lemma read_more E evs more h h1 r : read_events E evs h = (h1, r) ->
  match r with POk _ => adds (h_next h1) (costs more) h1 (read_events E (evs ++ more) h).1 | _ => read_events E (evs ++ more) h = (h1, r) end.
Proof. rewrite !read_events_eq. intros H. apply (loop_more_adds E (h_next h) more (S (length evs))); [lia|rewrite app_length; lia|done]. Qed.
Lemma read_result E evs h h1 d : read_events E evs h = (h1, POk d) -> d = h_next h.
Proof.
  rewrite read_events_eq. generalize (start_doc h), (S (length evs)). intros a f. revert evs a. induction f as [|k IH]; intros evs a H; [done|]. cbn [document_loop] in H.
  destruct evs as [|ev evs]; [by injection H|]. destruct ev as [v e s|nm l|nm l| |t|t|t|t| |]; try done.
  - destruct (handle_decl _ _ _ _ a) as [? [?|?|?|]]; try done. by eapply IH.
  - destruct (handle_start _ _ _ _ _ a) as [? [?|?|?|]]; try done. destruct (element _ _ _ _ _ _) as [[? ?] [?|?|?|]]; try done; by eapply IH.
  - destruct (handle_start _ _ _ _ _ a) as [? [?|?|?|]]; try done. by eapply IH.
  - by eapply IH.
  - destruct (handle_comment _ _ _ a) as [? [?|?|?|]]; try done. by eapply IH.
  - destruct (handle_pi _ _ _ a) as [? [?|?|?|]]; try done. by eapply IH.
Qed.

(** ** A failure is final: events after it do not matter *)
Theorem C84_final : forall E h evs more h' r, read_events E evs h = (h', r) -> (forall d, r <> POk d) -> read_events E (evs ++ more) h = (h', r).
Proof. intros E h evs more h' r H Hr. apply (read_more E evs more) in H. destruct r as [d| | |]; [|done..]. by destruct (Hr d). Qed.
Print Assumptions C84_final.
(** ** What is accepted is accepted wherever it is cut off, as the same document *)
Theorem C84_prefix : forall E h evs more h' d, read_events E (evs ++ more) h = (h', POk d) -> exists h1, read_events E evs h = (h1, POk d).
Proof.
  intros E h evs more h' d H. destruct (read_events E evs h) as [h1 r] eqn:H1. pose proof (read_result _ _ _ _ _ H) as ->.
  pose proof (read_more E evs more _ _ _ H1) as G. destruct r as [d| | |]; try congruence. exists h1. by rewrite (read_result _ _ _ _ _ H1).
Qed.
Print Assumptions C84_prefix.
(** ** Every failure is due to one event: what stands before it is accepted, what follows does not matter *)
Theorem C84_fault : forall E h evs h' r, read_events E evs h = (h', r) -> (forall d, r <> POk d) ->
  exists a ev b, evs = a ++ ev :: b /\ (exists h1 d, read_events E a h = (h1, POk d)) /\ (forall more, read_events E (a ++ ev :: more) h = (h', r)) /\
    forall a' ev' b', evs = a' ++ ev' :: b' -> (exists h1 d, read_events E a' h = (h1, POk d)) -> (forall d, (read_events E (a' ++ [ev']) h).2 <> POk d) -> a' = a /\ ev' = ev /\ b' = b.
Proof.
  intros E h evs h' r H Hr.
  assert (G : exists a ev b, evs = a ++ ev :: b /\ (exists h1 d, read_events E a h = (h1, POk d)) /\ read_events E (a ++ [ev]) h = (h', r)).
  { revert h' r H Hr. induction evs as [|ev evs IH] using rev_ind; intros h' r H Hr.
    - rewrite read_events_eq in H. cbn in H. injection H as <- <-. by destruct (Hr (h_next h)).
    - destruct (read_events E evs h) as [h1 r1] eqn:H1. assert (D : (exists d, r1 = POk d) \/ forall d, r1 <> POk d) by (destruct r1; [left; by eexists|by right..]). destruct D as [[d ->]|D].
      + exists evs, ev, []. split; [done|]. split; [by do 2 eexists|done].
      + pose proof (C84_final E h evs [ev] h1 r1 H1 D) as H2. rewrite H in H2. injection H2 as <- <-. destruct (IH h' r eq_refl Hr) as (a & x & b & -> & Ha & Hx). exists a, x, (b ++ [ev]). split; [|done].
        by rewrite <- app_assoc. }
  destruct G as (a & ev & b & He & Ha & Hf). exists a, ev, b. split; [done|]. split; [done|]. split.
  { intros more. change (ev :: more) with ([ev] ++ more). rewrite app_assoc. by apply C84_final. }
  intros a' ev' b' He' (h1' & d' & Ha') Hf'. destruct Ha as (h1 & d & Ha). destruct (read_events E (a' ++ [ev']) h) as [h2' r'] eqn:Hr'. cbn [snd] in Hf'.
  assert (T : length a = length a').
  { destruct (Nat.lt_trichotomy (length a) (length a')) as [L|[L|L]]; [|done|]; exfalso.
    - assert (exists c, a' = (a ++ [ev]) ++ c) as (c & Hc).
      { exists (drop (length (a ++ [ev])) a'). rewrite <- (take_drop (length (a ++ [ev])) a') at 1. f_equal.
        assert (take (length (a ++ [ev])) evs = a ++ [ev]) as <- by (rewrite He; change (ev :: b) with ([ev] ++ b); by rewrite app_assoc, take_app).
        rewrite He' at 2. rewrite take_app_le; [|rewrite app_length; cbn; lia]. f_equal. rewrite take_length, He', !app_length. cbn. lia. }
      rewrite Hc in Ha'. apply C84_prefix in Ha' as (? & Ha'). rewrite Hf in Ha'. injection Ha' as <- ->. by destruct (Hr d').
    - assert (exists c, a = (a' ++ [ev']) ++ c) as (c & Hc).
      { exists (drop (length (a' ++ [ev'])) a). rewrite <- (take_drop (length (a' ++ [ev'])) a) at 1. f_equal.
        assert (take (length (a' ++ [ev'])) evs = a' ++ [ev']) as <- by (rewrite He'; change (ev' :: b') with ([ev'] ++ b'); by rewrite app_assoc, take_app).
        rewrite He at 2. rewrite take_app_le; [|rewrite app_length; cbn; lia]. f_equal. rewrite take_length, He, !app_length. cbn. lia. }
      rewrite Hc in Ha. apply C84_prefix in Ha as (? & Ha). rewrite Hr' in Ha. injection Ha as <- ->. by destruct (Hf' d). }
  rewrite He in He'. apply app_inj_1 in He' as [Haa Hbb]; [|done]. injection Hbb as -> ->. done.
Qed.
Print Assumptions C84_fault.
(** ** Missing end tags, and too many, at the end make no difference *)
Theorem C84_ends : forall E h evs n h' d, read_events E evs h = (h', POk d) -> read_events E (evs ++ repeat EEnd n) h = (h', POk d).
Proof.
  intros E h evs n h' d H. pose proof (read_result _ _ _ _ _ H) as ->. rewrite !read_events_eq in *. eapply (loop_more_ends E (h_next h) n (S (length evs))); [lia| |exact H].
  rewrite app_length, repeat_length. lia.
Qed.
Print Assumptions C84_ends.
(** ** More events only add to what has been read, also if they fail in the end *)
Theorem C84_adds : forall E h evs more h1 d h2 r, reachable h -> read_events E evs h = (h1, POk d) -> read_events E (evs ++ more) h = (h2, r) ->
  forall i n, h_nodes h1 !! i = Some n -> exists n', h_nodes h2 !! i = Some n' /\ continued n n'.
Proof.
  intros E h evs more h1 d h2 r Hr H1 H2 i n Hn. pose proof (read_more E evs more _ _ _ H1) as G. cbn iota in G. rewrite H2 in G. destruct G as [G _]. apply G; [|done].
  apply read_part in H1 as (HP & _); [|intros; by apply reachable_none]. destruct (decide (i < h_next h1)%nat); [done|]. rewrite (pa_none _ _ _ _ HP) in Hn by lia. done.
Qed.
Print Assumptions C84_adds.
(** ** Reading makes no more nodes than the events call for, however it ends *)
Theorem C84_nodes : forall E h evs h' r, reachable h -> read_events E evs h = (h', r) ->
  exists l, (length l <= 1 + costs evs)%nat /\ forall i, h_nodes h !! i = None -> h_nodes h' !! i <> None -> In i l.
Proof.
  intros E h evs h' r Hr H. exists (seq (h_next h) (h_next h' - h_next h)). rewrite seq_length. split.
  - rewrite read_events_eq in H. apply (loop_adds E _ 0) in H as [_ L]; [|lia]. cbn [start_doc allocd h_next] in L. lia.
  - intros i Hi Hn. destruct (h_nodes h' !! i) as [n|] eqn:Hi'; [|done]. pose proof (new_above _ _ _ _ _ _ _ Hr H Hi Hi') as L.
    apply read_part in H as (HP & _); [|intros; by apply reachable_none]. apply in_seq. destruct (decide (i < h_next h')%nat); [lia|]. rewrite (pa_none _ _ _ _ HP) in Hi' by lia. done.
Qed.
Print Assumptions C84_nodes.

(** ** Examples *)
(** [<!--x--><a k="v"><b>t] and then [</b><?p?></a>]. *)
Definition ex_front : list event := [EComment (Some (lit "x")); EStart (Some (lit "a")) [PAttr (lit "k") (lit "v")]; EStart (Some (lit "b")) []; EText (Some (lit "t"))].
Definition ex_back : list event := [EEnd; EPI (Some (lit "p")); EEnd].
Definition ex_cut := read_events env0 ex_front empty_heap.
Definition ex_full := read_events env0 (ex_front ++ ex_back) empty_heap.
Example C84_example : ex_cut.2 = POk 0 /\ ex_full.2 = POk 0 /\
  to_string env0 ex_cut.1 0 = Ok (lit "<!--x--><a k=""v""><b>t</b></a>") /\ to_string env0 ex_full.1 0 = Ok (lit "<!--x--><a k=""v""><b>t</b><?p?></a>") /\
  child_nodes ex_cut.1 2 = Ok [5] /\ child_nodes ex_full.1 2 = Ok [5; 7] /\ costs (ex_front ++ ex_back) = 7 /\ h_next ex_full.1 = 8.
Proof. by vm_compute. Qed.
(** Text after the document element is the fault; what follows is not looked at. *)
Example C84_fault_example : (forall d, (read_events env0 ((ex_front ++ ex_back) ++ [EText (Some (lit "z"))]) empty_heap).2 <> POk d) /\
  (read_events env0 ((ex_front ++ ex_back) ++ EText (Some (lit "z")) :: [EStart (Some (lit "c")) []; EError]) empty_heap).2 = PErr PEMalformed.
Proof. assert (H : (read_events env0 ((ex_front ++ ex_back) ++ [EText (Some (lit "z"))]) empty_heap).2 = PErr PEMalformed) by (by vm_compute). rewrite H. split; [done|]. by vm_compute. Qed.
(** Elsewhere an end tag too many does make a difference. *)
Theorem C84_inner_end_refuted : ~ (forall a b h' d, read_events env0 (a ++ b) empty_heap = (h', POk d) -> exists h1, read_events env0 (a ++ EEnd :: b) empty_heap = (h1, POk d)).
Proof.
  intros H. specialize (H [EStart (Some (lit "a")) []; EStart (Some (lit "b")) []; EEnd] [EEmpty (Some (lit "c")) []; EEnd]).
  destruct (read_events env0 ([EStart (Some (lit "a")) []; EStart (Some (lit "b")) []; EEnd] ++ [EEmpty (Some (lit "c")) []; EEnd]) empty_heap) as [h' r] eqn:Hr.
  assert (r = POk 0) as -> by (apply (f_equal snd) in Hr; vm_compute in Hr; congruence). destruct (H h' 0 eq_refl) as (h1 & H1). apply (f_equal snd) in H1. vm_compute in H1. discriminate H1.
Qed.
Print Assumptions C84_inner_end_refuted.
(** Nothing tells that a document has been cut off. *)
Theorem C84_cut_refuted : ~ (forall evs more h1 h2 d, read_events env0 evs empty_heap = (h1, POk d) -> read_events env0 (evs ++ more) empty_heap = (h2, POk d) -> to_string env0 h1 d = to_string env0 h2 d).
Proof.
  intros H. specialize (H ex_front ex_back ex_cut.1 ex_full.1 0). destruct C84_example as (H1 & H2 & H3 & H4 & _). rewrite H3, H4 in H.
  assert (B : Ok (lit "<!--x--><a k=""v""><b>t</b></a>") = Ok (lit "<!--x--><a k=""v""><b>t</b><?p?></a>")).
  { apply H; [rewrite <- H1; apply surjective_pairing|rewrite <- H2; apply surjective_pairing]. }
  vm_compute in B. discriminate B.
Qed.
Print Assumptions C84_cut_refuted.
