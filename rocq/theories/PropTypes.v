(** * C81: which types of nodes exist; programs that leak nothing *)
From Coq Require Import Lia.
From Verif Require Import SpecTypes ProofInv ProofSteps ProofOps ProofTree ProofTypes PropTree PropMem PropRc SpecRc.

Lemma typed_occurs G h : typed_in G h <-> forall t, occurs h t -> G t.
Proof.
  split.
  - intros Hg t (i & (n & Hn & <-)%node_type_ok). by eapply Hg.
  - intros H i n Hn. apply H. exists i. apply node_type_ok. eauto.
Qed.
(** Whatever the call does and however it ends: the types of the nodes afterwards are types from before, and those the call makes. *)
Theorem C81_types : forall E o h h' r t, exec E o h = (h', r) -> occurs h' t -> In t (makes o) \/ occurs h t.
Proof.
  intros E o h h' r t He Ht. set (G := fun t => In t (makes o) \/ occurs h t). assert (HG : typed_in G h) by (apply typed_occurs; by right).
  assert (Hg' : typed_in G h') by (eapply typed_in_exec; [|exact HG|exact He]; by left). by apply (proj1 (typed_occurs G h') Hg').
Qed.
Print Assumptions C81_types.
(** So a type exists only if some call of the history makes it. *)
Theorem C81_made : forall P h t, guided (fun _ o => P o) h -> occurs h t -> exists o, P o /\ In t (makes o).
Proof.
  intros P h t Hg. induction Hg as [|h o h' _ IH Ho [_ (E & r & _ & He & _)]].
  - intros (i & (n & Hn & _)%node_type_ok). done.
  - intros [Ht|Ht]%(C81_types E o h h' r t He); [by exists o|by apply IH].
Qed.
Print Assumptions C81_made.
(** No call frees a node, whatever it is given and however it ends; and the node it returns exists. *)
Theorem C81_frees_nothing : forall E o h h' r i, (forall l, o <> ODrop l) -> exec E o h = (h', r) -> alive h i = true -> alive h' i = true.
Proof. intros E o h h' r i Ho He Hi. by eapply (there_exec i E o h). Qed.
Print Assumptions C81_frees_nothing.
Theorem C81_result : forall E o h h' i, exec E o h = (h', Ok (Some i)) -> alive h' i = true.
Proof. apply exec_result. Qed.
Print Assumptions C81_result.
Lemma guided_sub (G G' : heap -> op -> Prop) h : (forall h o, G h o -> G' h o) -> guided G h -> guided G' h.
Proof. intros HG. induction 1; [constructor|by eapply guided_step; [|apply HG|]]. Qed.

(** ** Nothing leaks *)
(** A program that puts no node under its own descendant and creates no entity references never leaks: whatever handles it keeps, exactly what it
    reaches from them stays; and when it keeps none, nothing stays. *)
Theorem C81_no_leak : forall h, guided (fun h o => no_ancestor_insert h o /\ no_reference o) h ->
  (forall i, ~ leaked h i) /\ (forall H h' i, collected H h h' -> alive h' i = true <-> in_use H h i /\ alive h i = true) /\ (forall h' i, collected [] h h' -> alive h' i = false).
Proof.
  intros h Hg. assert (Hr : reachable h) by (by eapply guided_reachable).
  assert (Hac : acyclic h) by (apply C28_acyclic; eapply guided_sub; [|exact Hg]; by intros ? ? [? _]).
  assert (Hno : ~ occurs h NEntityReference).
  { intros Ho. assert (Hg2 : guided (fun _ o => no_reference o) h) by (eapply guided_sub; [|exact Hg]; by intros ? ? [_ ?]).
    destruct (C81_made no_reference h _ Hg2 Ho) as (o & Hr' & Hin). destruct o as [u [q|] t p| | | | | | | | | | | | | | | | | | | | | | | | | | | | | | | | | | | | | | |]; cbn in Hin; try done;
      repeat (destruct Hin as [Hin|Hin]; [done|]); done. }
  assert (Hpl : plain_attributes h).
  { intros a c Ha Hc. pose proof (reachable_inv h Hr) as HI. apply node_type_ok in Ha as (n & Hn & Ht). apply child_edge in Hc as (n' & Hn' & Hin). assert (n' = n) as -> by congruence.
    destruct (inv_node h HI a n Hn) as (_ & _ & _ & [Hch _] & _). destruct (Hch c Hin) as (_ & s & (m & Hm & <-)%info_inv & [Hl _]). cbn in Hl. rewrite Ht in Hl. apply node_type_ok. exists m. split; [done|].
    destruct (n_type m) eqn:Hm'; try done. exfalso. apply Hno. exists c. apply node_type_ok. eauto. }
  split; [by apply C73_no_cycle|]. by apply C73_all_freed.
Qed.
Print Assumptions C81_no_leak.

(** ** Programs *)
Lemma collected_keeps H h h' i : reachable h -> collected H h h' -> In i H -> alive h i = true -> alive h' i = true.
Proof. intros Hr Hc Hin Hi. apply (C73_exact H h h' Hr Hc). split; [done|]. left. exists i. split; [done|]. split; [done|constructor]. Qed.
Lemma call_step h E o h1 r : typed_op h o = true -> wf_env E -> exec E o h = (h1, r) -> ended r -> step h o h1.
Proof. intros Ht HE He Hr. split; [done|]. by exists E, r. Qed.
Lemma program_handles G h H : program G h H -> reachable h /\ Forall (fun i => alive h i = true) H.
Proof.
  induction 1 as [|h H E o h1 r h' _ [Hr HH] _ Hd Ht HE He Hret Hc|h H i _ [Hr HH] Hi|h H1 i H2 h' _ [Hr HH] Hc].
  - split; [constructor|constructor].
  - assert (Hr1 : reachable h1) by (eapply reach_step; [exact Hr|by eapply call_step]). split; [by apply (frees_rtc _ _ _ Hr1 (proj1 Hc))|]. apply List.Forall_forall. intros i Hin.
    eapply (collected_keeps _ h1); [done|done|done|]. apply in_app_or in Hin as [Hin|Hin].
    + unfold result in Hin. destruct r as [[j|]|e|p|]; try done. destruct Hin as [->|[]]. by eapply exec_result.
    + eapply (there_exec i E o h); [done| |exact He]. by apply (proj1 (List.Forall_forall _ H) HH).
  - split; [done|by constructor].
  - split; [by apply (frees_rtc _ _ _ Hr (proj1 Hc))|]. apply List.Forall_forall. intros j Hin. eapply (collected_keeps _ h); [done|done|done|].
    apply (proj1 (List.Forall_forall _ _) HH). apply in_or_app. apply in_app_or in Hin as [?|?]; [by left|right; by right].
Qed.
Lemma program_full G h H : program G h H -> forall h2, ~ frees H h h2.
Proof.
  induction 1 as [|h H E o h1 r h' _ _ _ _ _ _ _ _ [_ Hst]|h H i _ IH Hi|h H1 i H2 h' _ _ [_ Hst]]; [|done| |done].
  - intros h2 (i & Hi & _). done.
  - intros h2 (j & Hj & Hno & Hown & ->). apply (IH (without j h)). exists j. split; [done|]. split; [|done]. intros Hin. apply Hno. by right.
Qed.
(** Whatever a program does, all nodes it has handles to exist; there are right counts; and every node that exists is one it reaches, or hangs from a cycle. *)
Theorem C81_program : forall G h H, program G h H -> reachable h /\ Forall (fun i => alive h i = true) H /\ (exists c, accurate H (mkRc h c)) /\
  forall i, alive h i = true -> in_use H h i \/ leaked h i.
Proof.
  intros G h H Hp. destruct (program_handles G h H Hp) as [Hr HH]. pose proof (program_full G h H Hp) as Hst. split; [done|]. split; [done|]. split.
  - apply (C80_counts H h h Hr HH). split; [constructor|done].
  - intros i. by apply stuck_kept; [apply reachable_inv|].
Qed.
Print Assumptions C81_program.
Lemma program_guided (G : heap -> op -> Prop) h H : (forall h l, G h (ODrop l)) -> program G h H -> guided G h.
Proof.
  intros HG. assert (Hf : forall H a b, guided G a -> rtc (frees H) a b -> guided G b).
  { intros H0 a b Ha Hs. induction Hs as [|a c b Hac _ IH]; [done|]. apply IH. destruct (C73_history H0 a c (guided_reachable _ _ Ha) Hac) as (i & Hst & _). by eapply guided_step. }
  induction 1 as [|h H E o h1 r h' _ IH Ho Hd Ht HE He Hret [Hc _]|h H i _ IH _|h H1 i H2 h' _ IH [Hc _]]; [constructor| |done|by eapply Hf].
  eapply Hf; [|exact Hc]. eapply guided_step; [exact IH|exact Ho|by eapply call_step].
Qed.
(** In a program that puts no node under its own descendant and creates no entity references, the nodes that exist are at any time those it reaches from its
    handles: none is lost, and none stays without need. *)
Theorem C81_program_tidy : forall h H i, program (fun h o => no_ancestor_insert h o /\ no_reference o) h H -> (alive h i = true <-> in_use H h i).
Proof.
  intros h H i Hp. destruct (C81_program _ h H Hp) as (Hr & _ & _ & Hk). destruct (C81_no_leak h) as [Hno _]; [by apply (program_guided _ h H)|]. split.
  - intros Hi. destruct (Hk i Hi) as [?|Hl]; [done|by apply Hno in Hl].
  - intros (r & _ & Ha & Hs). apply rtc_inv_r in Hs as [->|(w & _ & Hw)]; [done|]. by apply (owns_alive h w i (reachable_inv h Hr)) in Hw as [_ ?].
Qed.
Print Assumptions C81_program_tidy.

(** *** Examples *)
(** A history that brings about all twelve types. *)
Definition ex_types_ops : list op :=
  [OCreateDocumentType (lit "r") None None; OCreateDocument None (Some (lit "r")) (Some 0) options_new; OCreateAttribute 1 (lit "a"); OCreateText 1 (lit "t"); OCreateCData 1 (lit "t");
   OCreateEntityReference 1 (lit "e"); OCreateInternalEntity 1 (lit "e") (lit "v"); OCreatePI 1 (lit "p") None; OCreateComment 1 (lit "c"); OCreateFragment 1; OCreateNotation 1 (lit "n") None None].
Definition ex_types : heap := default empty_heap (run env0 ex_types_ops empty_heap).
Example C81_all : reachable ex_types /\ forall t, occurs ex_types t.
Proof.
  split; [apply (run0_reachable ex_types_ops); by vm_compute|]. intros t.
  exists (match t with NElement => 2 | NAttribute => 3 | NText => 4 | NCData => 5 | NEntityReference => 6 | NEntity => 7 | NProcessingInstruction => 8 | NComment => 9 | NDocument => 1 | NDocumentType => 0
          | NDocumentFragment => 10 | NNotation => 11 end). destruct t; by vm_compute.
Qed.
(** The guards of [C81_no_leak] hold of the history of [ex_tree], with its elements, attributes and text. *)
Lemma run_guided_all P ops h h' : guided (fun h o => no_ancestor_insert h o /\ P o) h -> Forall P ops -> run_safe ops h = true -> run env0 ops h = Some h' ->
  guided (fun h o => no_ancestor_insert h o /\ P o) h'.
Proof.
  revert h. induction ops as [|o ops IH]; intros h Hg HP Ht H; cbn in H, Ht; [congruence|].
  apply andb_true_iff in Ht as [Ht1 Ht2]. inversion HP as [|? ? Ho HP']; subst. destruct (typed_op h o) eqn:Hty; [|done].
  destruct (exec env0 o h) as [h1 r] eqn:He. assert (G : run env0 ops h1 = Some h' /\ returned r) by (by destruct r).
  destruct G as [H1 Hr]. eapply IH; [|exact HP'|exact Ht2|exact H1]. eapply guided_step; [done| |split; [done|]; exists env0, r; split; [exact wf_env0|]; split; [done|]; by destruct r].
  split; [|done].
  assert (G : forall p c, negb (p =? c)%nat && match h_nodes h !! c with Some n => is_nil (n_children n) | None => true end = true -> ~ at_or_below h c p).
  { intros p c [Hne Hn]%andb_true_iff Hab. apply rtc_child_one in Hab as [->|(l & x & (n & Hc & <-)%child_nodes_ok & Hin & _)]; [by rewrite Nat.eqb_refl in Hne|].
    rewrite Hc in Hn. by destruct (n_children n). }
  destruct o; cbn; try done; by apply G.
Qed.
Example C81_example : guided (fun h o => no_ancestor_insert h o /\ no_reference o) ex_tree /\ occurs ex_tree NAttribute /\ ~ occurs ex_tree NEntityReference /\
  exists h', collected [] ex_tree h' /\ alive ex_tree 5 = true /\ alive h' 5 = false.
Proof.
  assert (Hg : guided (fun h o => no_ancestor_insert h o /\ no_reference o) ex_tree).
  { apply (run_guided_all no_reference ex_tree_ops empty_heap); [constructor|by repeat constructor|by vm_compute|by vm_compute]. }
  assert (Hr : reachable ex_tree) by (by eapply guided_reachable). split; [done|].
  split; [exists 7; by vm_compute|]. split.
  - intros Ho. destruct (C81_made no_reference ex_tree _ (guided_sub _ _ _ (fun _ _ H => proj2 H) Hg) Ho) as (o & Hr' & Hin).
    destruct o as [u [q|] t p| | | | | | | | | | | | | | | | | | | | | | | | | | | | | | | | | | | | | | |]; cbn in Hin; try done; repeat (destruct Hin as [Hin|Hin]; [done|]); done.
  - destruct (C73_ends [] ex_tree Hr) as (h' & Hh'). exists h'. split; [done|]. split; [by vm_compute|]. by apply (C81_no_leak ex_tree Hg).
Qed.
(** With an entity reference it can leak though no node is put under its descendant ([C73_attribute_refuted]); and with such an insertion although there is
    no entity reference. *)
Theorem C81_insert_refuted : exists h i, guided (fun _ o => no_reference o) h /\ alive h i = true /\ leaked h i.
Proof.
  assert (Hr : reachable ex_cycle) by (apply (run0_reachable ex_cycle_ops); by vm_compute). pose proof (reachable_inv _ Hr) as HI.
  exists ex_cycle, 3. split; [|split; [by vm_compute|]].
  - assert (G : forall ops h h', guided (fun _ o => no_reference o) h -> Forall no_reference ops -> run env0 ops h = Some h' -> guided (fun _ o => no_reference o) h').
    { induction ops as [|o ops IH]; intros h h' Hg HP H; cbn in H; [congruence|]. inversion HP as [|? ? Ho HP']; subst. destruct (typed_op h o) eqn:Hty; [|done].
      destruct (exec env0 o h) as [h1 r] eqn:He. assert (G : run env0 ops h1 = Some h' /\ returned r) by (by destruct r). destruct G as [H1 Hr1]. eapply IH; [|exact HP'|exact H1].
      eapply guided_step; [done|done|]. split; [done|]. exists env0, r. split; [exact wf_env0|]. split; [done|]. by destruct r. }
    apply (G ex_cycle_ops empty_heap); [constructor|by repeat constructor|by vm_compute].
  - exists 1. assert (H15 : owns ex_cycle 1 5) by (apply owns_checked; [done|by vm_compute]).
    split; [apply (tc_l _ 1 5); [done|]; apply tc_once, owns_checked; [done|by vm_compute]|]. apply (rtc_l _ 1 5); [done|]. apply rtc_once, owns_checked; [done|by vm_compute].
Qed.
Print Assumptions C81_insert_refuted.
(** A document is created, with its element; a text is added; the handles to the element and the text are dropped, and both stay, in use by the document;
    then the handle to the document is dropped. *)
Lemma collected_same H h : Inv h -> forallb (fun i => bool_decide (i ∈ H ++ in_nodes h)) (live h) = true -> collected H h h.
Proof.
  intros HI Hall. split; [constructor|]. intros h2 (i & (n & Hn)%alive_true & Hno & Hown & _). rewrite forallb_forall in Hall.
  assert (Hin : i ∈ H ++ in_nodes h). { apply (bool_decide_eq_true (i ∈ H ++ in_nodes h)), Hall. apply in_map_iff. exists (i, n). split; [done|]. by apply elem_of_list_In, elem_of_map_to_list. }
  apply elem_of_list_In, in_app_or in Hin as [?|Hin]; [done|]. destruct (proj1 (in_nodes_owns h i HI)) as (j & Hj); [by apply (count_occ_In Nat.eq_dec)|]. by apply Hown in Hj.
Qed.
Definition tidy (h : heap) (o : op) : Prop := no_ancestor_insert h o /\ no_reference o.
Definition ex_prog_heap (k : nat) : heap :=
  default empty_heap (run env0 (take k [OCreateDocument None (Some (lit "r")) None options_new; OCreateText 0 (lit "t"); OAppendChild 1 2]) empty_heap).
Lemma ex_prog_call k o r H : exec env0 o (ex_prog_heap k) = (ex_prog_heap (S k), r) -> program tidy (ex_prog_heap k) H -> tidy (ex_prog_heap k) o -> (forall l, o <> ODrop l) ->
  typed_op (ex_prog_heap k) o = true -> ended r -> forallb (fun i => bool_decide (i ∈ (result r ++ H) ++ in_nodes (ex_prog_heap (S k)))) (live (ex_prog_heap (S k))) = true ->
  program tidy (ex_prog_heap (S k)) (result r ++ H).
Proof.
  intros He Hp Ht Hd Hty Hr Hc. assert (Hre : reachable (ex_prog_heap (S k))). { destruct (program_handles _ _ _ Hp) as [Hr0 _]. eapply reach_step; [exact Hr0|]. eapply call_step; [exact Hty|exact wf_env0|exact He|exact Hr]. }
  eapply program_call; [exact Hp|exact Ht|exact Hd|exact Hty|exact wf_env0|exact He|exact Hr|]. apply collected_same; [by apply reachable_inv|done].
Qed.
Example C81_program_example : program tidy (ex_prog_heap 3) [0] /\ alive (ex_prog_heap 3) 2 = true /\ exists h, program tidy h [] /\ alive h 2 = false.
Proof.
  assert (P0 : program tidy (ex_prog_heap 0) []) by constructor.
  assert (P1 : program tidy (ex_prog_heap 1) [0]).
  { refine (ex_prog_call 0 (OCreateDocument None (Some (lit "r")) None options_new) (Ok (Some 0)) [] _ P0 _ _ _ _ _); [by vm_compute|done|done|by vm_compute|done|by vm_compute]. }
  assert (P1' : program tidy (ex_prog_heap 1) [1; 0]) by (apply program_look; [done|by vm_compute]).
  assert (P2 : program tidy (ex_prog_heap 2) [2; 1; 0]).
  { refine (ex_prog_call 1 (OCreateText 0 (lit "t")) (Ok (Some 2)) _ _ P1' _ _ _ _ _); [by vm_compute|done|done|by vm_compute|done|by vm_compute]. }
  assert (P3 : program tidy (ex_prog_heap 3) [2; 2; 1; 0]).
  { refine (ex_prog_call 2 (OAppendChild 1 2) (Ok (Some 2)) _ _ P2 _ _ _ _ _); [by vm_compute| |done|by vm_compute|done|by vm_compute]. split; [|done]. cbn.
    intros [[=]|(l & x & Hl & Hin & _)]%rtc_child_one. vm_compute in Hl. by injection Hl as <-. }
  assert (Hr : reachable (ex_prog_heap 3)) by (by apply (program_handles _ _ _ P3)). pose proof (reachable_inv _ Hr) as HI.
  assert (D1 : program tidy (ex_prog_heap 3) [2; 1; 0]) by (apply (program_drop _ _ [] 2 [2; 1; 0] _ P3); apply collected_same; [done|by vm_compute]).
  assert (D2 : program tidy (ex_prog_heap 3) [1; 0]) by (apply (program_drop _ _ [] 2 [1; 0] _ D1); apply collected_same; [done|by vm_compute]).
  assert (D3 : program tidy (ex_prog_heap 3) [0]) by (apply (program_drop _ _ [] 1 [0] _ D2); apply collected_same; [done|by vm_compute]).
  split; [done|]. split; [by vm_compute|]. destruct (C73_ends [] (ex_prog_heap 3) Hr) as (h & Hh). exists h.
  assert (P : program tidy h []) by (by apply (program_drop _ _ [] 0 [] _ D3)). split; [done|].
  destruct (alive h 2) eqn:Ha; [|done]. apply (C81_program_tidy h [] 2 P) in Ha as (r & [] & _).
Qed.
