(** * C77: what a call does depends on what its nodes look like, and programs that share no nodes do not affect each other *)
From Coq Require Import Lia.
From Verif Require Import SpecIso ProofIso ProofIsoOps ProofIsoExec ProofIsoRun.

(** The same call on corresponding nodes of two states that look alike: either neither returns, or the outcomes
    correspond, the states reached look alike again, and nothing outside the corresponding parts changed. *)
Theorem C77_calls : forall E R f o h h', ordered_by_keys E -> alike R h h' -> (forall i, In i (given o) -> R i (f i)) ->
  ((exec E o h).2 = Diverge /\ (exec E (rename f o) h').2 = Diverge) \/
  exists R1, let p := exec E o h in let p' := exec E (rename f o) h' in
    alike R1 p.1 p'.1 /\ grows R h h' R1 p.1 p'.1 /\ res_rel (option_Forall2 R1) p.2 p'.2.
Proof. intros E R f o h h' HE A Hg. apply (sim_exec E HE R f o Hg h h' A). Qed.
Print Assumptions C77_calls.

(** The same query gives the same answer, up to the names of the nodes in it. *)
Theorem C77_queries : forall E f q h h', ordered_by_keys E -> forall R, alike R h h' -> (forall a b, R a b -> b = f a) -> (exists b, R (asked q) b) ->
  ask E h' (rename_query f q) = rename_res (rename_answer f) (ask E h q).
Proof.
  intros E f q h h' HE R A Hf [b Hb]. eapply graph_res; [|apply (sim_ask E HE R h h' A); by rewrite <- (Hf _ _ Hb)]. intros a a'. by apply graph_answer.
Qed.
Print Assumptions C77_queries.

(** Two clients that share no nodes, in any interleaving: each gets the results it gets when running alone, the state
    of its nodes looks the same, and every query about them has the same answer. *)
Lemma paired_empty : paired empty_heap [] (fun _ => empty_heap).
Proof. split; [done|]. intros c. split; [done|]. split; try done; intros a b; try (by intros b' [H _]); by intros [H _]. Qed.
Theorem C77_clients : forall tr h own rs, Forall (fun x => ordered_by_keys x.2.1) tr -> together tr empty_heap [] = Some (h, own, rs) -> forall c,
  exists h', alone (map (fun x => (x.1, rename (rank own c) x.2)) (of_client c tr)) empty_heap = Some (h', map (rename_res (option_map (rank own c))) (of_client c rs)) /\
    alike (fun a b => own !! a = Some c /\ b = rank own c a) h h' /\
    forall E q, ordered_by_keys E -> own !! asked q = Some c -> ask E h' (rename_query (rank own c) q) = rename_res (rename_answer (rank own c)) (ask E h q).
Proof.
  intros tr h own rs HE H c. destruct (run_paired tr HE _ _ _ _ _ _ paired_empty H) as (hs & [_ HP] & HA). destruct (HP c) as [_ A]. exists (hs c). split; [apply HA|]. split; [exact A|].
  intros E q HE1 Hq. eapply C77_queries; [done|exact A|by intros a b [_ ->]|]. by exists (rank own c (asked q)).
Qed.
Print Assumptions C77_clients.

(** So the interleaving does not matter. *)
Theorem C77_schedules : forall tr1 tr2 h1 h2 own1 own2 rs1 rs2 c,
  Forall (fun x => ordered_by_keys x.2.1) tr1 -> Forall (fun x => ordered_by_keys x.2.1) tr2 ->
  together tr1 empty_heap [] = Some (h1, own1, rs1) -> together tr2 empty_heap [] = Some (h2, own2, rs2) ->
  map (fun x => (x.1, rename (rank own1 c) x.2)) (of_client c tr1) = map (fun x => (x.1, rename (rank own2 c) x.2)) (of_client c tr2) ->
  map (rename_res (option_map (rank own1 c))) (of_client c rs1) = map (rename_res (option_map (rank own2 c))) (of_client c rs2) /\
  forall E q1 q2, ordered_by_keys E -> own1 !! asked q1 = Some c -> own2 !! asked q2 = Some c -> rename_query (rank own1 c) q1 = rename_query (rank own2 c) q2 ->
    rename_res (rename_answer (rank own1 c)) (ask E h1 q1) = rename_res (rename_answer (rank own2 c)) (ask E h2 q2).
Proof.
  intros tr1 tr2 h1 h2 own1 own2 rs1 rs2 c HE1 HE2 H1 H2 Heq. destruct (C77_clients tr1 h1 own1 rs1 HE1 H1 c) as (h1' & A1 & _ & Q1). destruct (C77_clients tr2 h2 own2 rs2 HE2 H2 c) as (h2' & A2 & _ & Q2).
  rewrite Heq, A2 in A1. injection A1 as <- Hr. split; [done|]. intros E q1 q2 HE Hq1 Hq2 Hq. rewrite <- Q1, <- Q2 by done. by rewrite Hq.
Qed.
Print Assumptions C77_schedules.

(** A call leaves every node of the other client as it is. *)
Theorem C77_untouched : forall tr h own rs E o c a, Forall (fun x => ordered_by_keys x.2.1) tr -> together tr empty_heap [] = Some (h, own, rs) -> ordered_by_keys E ->
  (forall i, In i (given o) -> own !! i = Some c) -> own !! a = Some (negb c) -> (exec E o h).2 <> Diverge -> h_nodes (exec E o h).1 !! a = h_nodes h !! a.
Proof.
  intros tr h own rs E o c a HT H HE Hg Ha Hd. destruct (run_paired tr HT _ _ _ _ _ _ paired_empty H) as (hs & [HN HP] & _). destruct (HP c) as [_ A].
  destruct (sim_exec E HE (belongs own c) (rank own c) o (fun i Hi => conj (Hg i Hi) eq_refl) h (hs c) A) as [[D _]|(R1 & _ & G & _)]; [done|].
  apply (gr_frame _ _ _ _ _ _ G); [rewrite HN; by eapply lookup_lt_Some|]. intros b [Hb _]. rewrite Ha in Hb. by destruct c.
Qed.
Print Assumptions C77_untouched.

(** *** Examples *)
Lemma ordered_env0 : ordered_by_keys env0. Proof. by intros R l l'. Qed.
(** Maps walked backwards. *)
Definition env_rev : env := mkEnv true (e_letter env0) (e_digit env0) (fun l => rev l) (fun l => rev l).
Lemma ordered_rev : ordered_by_keys env_rev.
Proof. intros R l l' H. cbn. induction H as [|x y l l' Hx _ IH]; [constructor|]. cbn. apply Forall2_app; [done|]. constructor; [done|constructor]. Qed.
(** One client builds a document and clones its root, the other reads one, removes an attribute and makes a call that panics. *)
Definition ex_both : list (bool * call) :=
  [(true, (env0, OCreateDocument None (Some (lit "r")) None options_new));
   (false, (env0, OReadXml [EStart (Some (lit "x")) [PAttr (lit "p") (lit "1"); PAttr (lit "q") (lit "2")]; EText (Some (lit "u")); EEnd]));
   (true, (env0, OCreateElement 0 (lit "a")));
   (false, (env_rev, ORemoveAttribute 3 (lit "p")));
   (true, (env0, OAppendChild 1 9));
   (true, (env0, OSetAttribute 9 (lit "k") (lit "v")));
   (false, (env0, OSplit 8 5));
   (true, (env0, OClone true 1));
   (false, (env0, OAppendChild 3 3));
   (true, (env0, OCreateText 0 (lit "t")))].
Definition ex_end : heap * list bool * list (bool * res (option id)) := default (empty_heap, [], []) (together ex_both empty_heap []).
Example C77_clients_example : together ex_both empty_heap [] = Some ex_end /\ Forall (fun x => ordered_by_keys x.2.1) ex_both /\
  ex_end.1.2 = [true; true; false; false; false; false; false; false; false; true; true; true; false; true; true; true] /\
  of_client true ex_end.2 = [Ok (Some 0); Ok (Some 9); Ok (Some 9); Ok None; Ok (Some 14); Ok (Some 15)]%nat /\
  of_client false ex_end.2 = [Ok (Some 2); Ok None; Ok (Some 12); Panic PBorrow]%nat /\
  map (rank ex_end.1.2 true) [0; 9; 14; 15]%nat = [0; 2; 6; 7]%nat /\ map (rank ex_end.1.2 false) [2; 12]%nat = [0; 7]%nat /\
  ask env0 ex_end.1.1 (QToString 0) = Ok (AStr (lit "<r><a k=""v""></a></r>")) /\
  ask env0 ex_end.1.1 (QToString 3) = Ok (AStr (lit "<x q=""2"">u</x>")).
Proof. split; [by vm_compute|]. split; [repeat constructor; first [apply ordered_env0|apply ordered_rev]|]. split_and!; by vm_compute. Qed.
(** Alone, the first client gives its nodes other names and gets the same. *)
Example C77_alone_example : exists h', alone (map (fun x => (x.1, rename (rank ex_end.1.2 true) x.2)) (of_client true ex_both)) empty_heap =
    Some (h', [Ok (Some 0); Ok (Some 2); Ok (Some 2); Ok None; Ok (Some 6); Ok (Some 7)]%nat) /\
  ask env0 h' (QToString 0) = Ok (AStr (lit "<r><a k=""v""></a></r>")) /\ ask env0 h' (QChildren 0) = Ok (ANodes [1%nat]).
Proof. eexists. split; [by vm_compute|]. split; by vm_compute. Qed.
(** The premises of C77_calls and C77_queries: the two states of the example look alike on the nodes of the first client. *)
Example C77_calls_example : exists h', alike (fun a b => ex_end.1.2 !! a = Some true /\ b = rank ex_end.1.2 true a) ex_end.1.1 h' /\
  (forall i, In i (given (OAppendChild 9 15)) -> ex_end.1.2 !! i = Some true) /\ (exec env0 (OAppendChild 9 15) ex_end.1.1).2 = Ok (Some 15%nat).
Proof.
  destruct C77_clients_example as (H & HE & _). destruct ex_end as [[h own] rs] eqn:He. destruct (C77_clients ex_both h own rs HE H true) as (h' & _ & A & _). exists h'. rewrite <- He in *. split; [by rewrite He|].
  split; [intros i [<-|[<-|[]]]; by vm_compute|by vm_compute].
Qed.
(** The other order of the same programs, for C77_schedules. *)
Definition ex_turns : list (bool * call) :=
  [(false, (env0, OReadXml [EStart (Some (lit "x")) [PAttr (lit "p") (lit "1"); PAttr (lit "q") (lit "2")]; EText (Some (lit "u")); EEnd]));
   (false, (env_rev, ORemoveAttribute 1 (lit "p")));
   (true, (env0, OCreateDocument None (Some (lit "r")) None options_new));
   (false, (env0, OSplit 6 5));
   (false, (env0, OAppendChild 1 1));
   (true, (env0, OCreateElement 7 (lit "a")));
   (true, (env0, OAppendChild 8 10));
   (true, (env0, OSetAttribute 10 (lit "k") (lit "v")));
   (true, (env0, OClone true 8));
   (true, (env0, OCreateText 7 (lit "t")))].
Example C77_schedules_example : exists h own rs, together ex_turns empty_heap [] = Some (h, own, rs) /\
  map (fun x => (x.1, rename (rank own true) x.2)) (of_client true ex_turns) = map (fun x => (x.1, rename (rank ex_end.1.2 true) x.2)) (of_client true ex_both) /\
  map (fun x => (x.1, rename (rank own false) x.2)) (of_client false ex_turns) = map (fun x => (x.1, rename (rank ex_end.1.2 false) x.2)) (of_client false ex_both).
Proof. eexists _, _, _. split; [by vm_compute|]. split; by vm_compute. Qed.
(** With a node in common the claim fails: the second client moves the element of the first. *)
Example C77_shared_refuted :
  let tr := [OCreateDocument None (Some (lit "r")) None options_new; OCreateElement 0 (lit "a"); OAppendChild 1 2; OCreateElement 0 (lit "b")]%nat in
  let h := default empty_heap (run env0 tr empty_heap) in
  ask env0 h (QParent 2) = Ok (AOptNode (Some 1%nat)) /\ (exec env0 (OAppendChild 3 2) h).2 = Ok (Some 2%nat) /\
  ask env0 (exec env0 (OAppendChild 3 2) h).1 (QParent 2) = Ok (AOptNode (Some 3%nat)).
Proof. split_and!; by vm_compute. Qed.
