(** * C51 and C52: what is printed, and that content cannot inject markup *)
From Coq Require Import Lia Permutation.
From Verif Require Import History SpecShow ProofText ProofAttr ProofName PropName ProofInv ProofSteps ProofOps ProofTree ProofElem ProofWalk ProofRead ProofShow PropTree.

(** ** C51: display reflects the tree *)

(** Printing a node without cycles below it writes the abstract document it stands for. *)
Theorem C51_prints : forall E h i x, reachable h -> wf_env E -> no_cycle_below h i -> stands_for E h i x ->
  exists s, to_string E h i = Ok s /\ written x s.
Proof.
  intros E h i x Hr HE Hcy Hx. apply reachable_inv in Hr.
  assert (Hi : exists n, h_nodes h !! i = Some n) by (destruct Hx as [| | | | | | | | | |? ? (? & ? & ? & _)| |]; eauto).
  destruct (tree_exists h i Hr Hi Hcy) as (t & Ht & Hd).
  destruct (fmt_total E h i t Hr HE Ht (S (walk_fuel h)) ltac:(unfold walk_fuel; lia) x Hx) as (s & Hs). exists s. split; [done|].
  destruct (fmt_written E h Hr HE _ _ _ Hs) as (y & Hy & Hw). by rewrite (stands_fun E h x i y Hx Hy).
Qed.
Print Assumptions C51_prints.
(** It stands for exactly one, provided the attribute values can be read. *)
Theorem C51_one_document : forall E h i n, reachable h -> h_nodes h !! i = Some n -> no_cycle_below h i -> values_readable E h i ->
  exists x, stands_for E h i x /\ forall y, stands_for E h i y -> y = x.
Proof.
  intros E h i n Hr Hn Hcy Hv. apply reachable_inv in Hr. destruct (tree_exists h i Hr (ex_intro _ n Hn) Hcy) as (t & Ht & _).
  destruct (stands_total E h i t Hr Ht Hv) as (x & Hx). exists x. split; [done|]. intros y Hy. by eapply stands_fun.
Qed.
Print Assumptions C51_one_document.
(** Whatever is printed, with or without cycles elsewhere, is the writing of that document. *)
Theorem C51_prints_only : forall E h i s, reachable h -> wf_env E -> to_string E h i = Ok s ->
  exists x, stands_for E h i x /\ written x s.
Proof. intros E h i s Hr HE Hs. apply reachable_inv in Hr. by eapply fmt_written. Qed.
Print Assumptions C51_prints_only.
(** Another hash order: the same document is written, so only the order of attributes can differ. *)
Theorem C51_hash_order : forall E E' h i s, reachable h -> wf_env E -> wf_env E' -> but_hash_order E E' -> no_cycle_below h i ->
  to_string E h i = Ok s -> exists s' x, to_string E' h i = Ok s' /\ written x s /\ written x s'.
Proof.
  intros E E' h i s Hr HE HE' Heq Hcy Hs. destruct (C51_prints_only _ _ _ _ Hr HE Hs) as (x & Hx & Hw).
  destruct (C51_prints E' h i x Hr HE' Hcy (stands_env _ _ _ Heq _ _ Hx)) as (s' & Hs' & Hw'). eauto.
Qed.
Print Assumptions C51_hash_order.
(** Node identities do not matter: nodes standing for the same document, in whatever states, print
    writings of that one document; the same string if no element has two attributes. *)
Lemma written_few x : few_attrs x -> forall s s', written x s -> written x s' -> s = s'.
Proof.
  assert (A : forall attrs attrs1 attrs2 p1 p2, (length attrs <= 1)%nat -> attrs ≡ₚ attrs1 -> attrs ≡ₚ attrs2 -> Forall2 written_attr attrs1 p1 -> Forall2 written_attr attrs2 p2 -> p1 = p2).
  { intros attrs a1 a2 p1 p2 Hl H1 H2 F1 F2. assert (a1 = a2) as <-.
    { destruct attrs as [|a [|]]; [|apply Permutation_length_1_inv in H1 as ->, H2 as ->; done|cbn in Hl; lia]. apply Permutation_nil in H1 as ->, H2 as ->. done. }
    clear -F1 F2. revert p2 F2. induction F1 as [|p s a1 p1 (d & Hd & ->) _ IH]; intros p2 F2; inversion F2 as [|? ? ? ? (d' & Hd' & ->)]; subst; [done|].
    rewrite (escaped_fun _ _ _ Hd Hd'). f_equal. by apply IH. }
  assert (L : forall ks, Forall (fun x => few_attrs x -> forall s s', written x s -> written x s' -> s = s') ks -> Forall few_attrs ks ->
    forall ts ts', Forall2 written ks ts -> Forall2 written ks ts' -> ts = ts').
  { induction 1 as [|k ks Hk _ IH]; intros Hf ts ts' H H'; inversion H; subst; inversion H'; subst; [done|]. inversion Hf; subst. f_equal; eauto. }
  revert x. apply (xml_ind' (fun x => few_attrs x -> forall s s', written x s -> written x s' -> s = s')).
  - intros n a ks IH Hf s s' H H'. inversion Hf; subst. inversion H as [? ? a1 parts ? texts P1 F1 T1| | | | | | | | | | | | | | | |]; subst.
    inversion H' as [? ? a2 parts0 ? texts0 P2 F2 T2| | | | | | | | | | | | | | | |]; subst. assert (parts = parts0) as <- by (eapply (A a a1 a2); eassumption). assert (texts = texts0) as <- by (eapply (L ks IH); eassumption). done.
  - intros d dt ks _ IH Hf s s' H H'. inversion Hf; subst. inversion H; subst. inversion H'; subst. assert (texts = texts0) as <- by (eapply (L ks IH); eassumption). done.
  - intros ks _ Hf. inversion Hf.
  - intros x. destruct x; try exact Logic.I; intros Hf; inversion Hf; subst; intros s s' H H'; inversion H; subst; inversion H'; subst; try done; f_equal; try (by eapply escaped_fun).
    f_equal. by eapply escaped_fun.
Qed.
Theorem C51_no_identities : forall E E' h h' i i' x s s', reachable h -> reachable h' -> wf_env E -> wf_env E' ->
  stands_for E h i x -> stands_for E' h' i' x -> to_string E h i = Ok s -> to_string E' h' i' = Ok s' ->
  written x s /\ written x s' /\ (few_attrs x -> s = s').
Proof.
  intros E E' h h' i i' x s s' Hr Hr' HE HE' Hx Hx' Hs Hs'.
  destruct (C51_prints_only _ _ _ _ Hr HE Hs) as (y & Hy & Hw). rewrite <- (stands_fun _ _ _ _ _ Hx Hy) in Hw.
  destruct (C51_prints_only _ _ _ _ Hr' HE' Hs') as (y' & Hy' & Hw'). rewrite <- (stands_fun _ _ _ _ _ Hx' Hy') in Hw'.
  split_and!; [done|done|]. intros Hf. by eapply written_few.
Qed.
Print Assumptions C51_no_identities.

(** Document (0), [a] (1) with attributes [k] (2, value 3) and [l] (4, value 5), a text (6), a comment (7),
    an element [b] (8) with a text (9). *)
Definition ex_show_ops : list op :=
  [OCreateDocument None None None options_new; OCreateElement 0 (lit "a"); OSetAttribute 1 (lit "k") (lit "1<2"); OSetAttribute 1 (lit "l") (lit "x");
   OCreateText 0 (lit "1 & 2"); OAppendChild 1 6; OCreateComment 0 (lit "a>b"); OAppendChild 1 7;
   OCreateElement 0 (lit "b"); OAppendChild 1 8; OCreateText 0 (lit "t"); OAppendChild 8 9; OAppendChild 0 1].
Definition ex_show : heap := default empty_heap (run env0 ex_show_ops empty_heap).
Example ex_show_reachable : reachable ex_show.
Proof. apply (run0_reachable ex_show_ops). by vm_compute. Qed.
Definition ex_show_doc : xml :=
  XmlElement (lit "a") [(lit "k", lit "1<2"); (lit "l", lit "x")]
    [XmlText (Some (lit "1 & 2")); XmlComment (Some (lit "a>b")); XmlElement (lit "b") [] [XmlText (Some (lit "t"))]].
Ltac the_node h i := let n := eval vm_compute in (h_nodes h !! i) in match n with Some ?n => n end.
Ltac show_attr :=
  match goal with |- attr_stands_for ?E ?h ?a (?nm, ?v) => let n := the_node h a in exists n, (Some (escape v)); split; [by vm_compute|]; split; [done|];
    split; [by vm_compute|]; split; [by vm_compute|]; apply escape_escaped end.
Ltac show :=
  lazymatch goal with
  | |- Forall2 _ _ [] => apply Forall2_nil_2
  | |- Forall2 _ _ (_ :: _) => apply Forall2_cons_2; [show|show]
  | |- attr_stands_for _ _ _ _ => show_attr
  | |- stands_for ?E ?h ?i (XmlElement ?nm ?avs ?kids) => let n := the_node h i in
      let l := eval vm_compute in (match attributes h i with Ok l => l | _ => [] end) in
      refine (sf_element E h i n l avs kids _ _ _ _ _); [by vm_compute|done|by vm_compute|cbn [map snd]; show|cbn [n_children]; show]
  | |- stands_for ?E ?h ?i (XmlText _) => let n := the_node h i in refine (sf_text E h i n _ _); [by vm_compute|done]
  | |- stands_for ?E ?h ?i (XmlCData _) => let n := the_node h i in refine (sf_cdata E h i n _ _); [by vm_compute|done]
  | |- stands_for ?E ?h ?i (XmlComment _) => let n := the_node h i in refine (sf_comment E h i n _ _); [by vm_compute|done]
  | |- stands_for ?E ?h ?i (XmlPI _ _) => let n := the_node h i in refine (sf_pi E h i n _ _); [by vm_compute|done]
  end.
Example ex_show_stands : stands_for env0 ex_show 1 ex_show_doc.
Proof. unfold ex_show_doc. show. Qed.
Example ex_show_tree : tree_of ex_show 1 (Tr 1 [Tr 6 []; Tr 7 []; Tr 8 [Tr 9 []]]).
Proof. repeat (first [constructor|eapply tree_intro; [by vm_compute|]]). Qed.
Example C51_example : reachable ex_show /\ no_cycle_below ex_show 1 /\ stands_for env0 ex_show 1 ex_show_doc /\
  to_string env0 ex_show 1 = Ok (lit "<a k=""1&#60;2"" l=""x"">1 &#38; 2<!--a&#62;b--><b>t</b></a>").
Proof. split; [exact ex_show_reachable|]. split; [eapply tree_no_cycle; exact ex_show_tree|]. split; [exact ex_show_stands|by vm_compute]. Qed.
(** With the other order of the two attributes. *)
Definition env1 : env := mkEnv true (e_letter env0) (e_digit env0) (@rev _) (@rev _).
Example C51_example_order : but_hash_order env0 env1 /\
  to_string env1 ex_show 1 = Ok (lit "<a l=""x"" k=""1&#60;2"">1 &#38; 2<!--a&#62;b--><b>t</b></a>").
Proof. split; [done|by vm_compute]. Qed.

(** ** C52: content cannot inject markup *)

(** Reading the printed form gives the document back: names, attributes (in some order), text and
    comments unchanged, whatever characters they contain; adjacent text runs together.  CDATA sections
    and processing instructions too, as long as they do not contain what ends them ([plain]); a CDATA
    section comes back with a space more at each end. *)
Theorem C52_read_back : forall E h i x s, reachable h -> wf_env E -> stands_for E h i x -> plain x -> to_string E h i = Ok s ->
  exists its, read_back s = Some its /\ Forall2 same_item its (add_items x []).
Proof.
  intros E h i x s Hr HE Hx Hp Hs. destruct (C51_prints_only _ _ _ _ Hr HE Hs) as (y & Hy & Hw). rewrite <- (stands_fun _ _ _ _ _ Hx Hy) in Hw.
  apply read_back_ok; [|done]. apply reachable_inv in Hr. by eapply stands_named.
Qed.
Print Assumptions C52_read_back.
(** So two documents with the same printed form have the same content. *)
Lemma same_sym a : forall b, same_item a b -> same_item b a.
Proof.
  revert a. fix IH 3. intros a b H. destruct H as [n al al' ks ks' Hp Hf|v|v|v|v]; [|constructor..]. constructor; [by symmetry|].
  clear -IH Hf. induction Hf; constructor; [by apply IH|done].
Qed.
Lemma same_trans a : forall b c, same_item a b -> same_item b c -> same_item a c.
Proof.
  revert a. fix IH 4. intros a b c H. destruct H as [n al al' ks ks' Hp Hf|v|v|v|v]; intros H'; [|by inversion H'; constructor..].
  inversion H' as [? ? al2 ? ks2 Hp2 Hf2| | | |]; subst. constructor; [by etrans|].
  clear -IH Hf Hf2. revert ks2 Hf2. induction Hf as [|k k' ks ks' Hk _ IHf]; intros ks2 Hf2; inversion Hf2; subst; constructor; [by eapply IH|by apply IHf].
Qed.
Theorem C52_injective : forall E E' h h' i i' x x' s, reachable h -> reachable h' -> wf_env E -> wf_env E' ->
  stands_for E h i x -> stands_for E' h' i' x' -> plain x -> plain x' -> to_string E h i = Ok s -> to_string E' h' i' = Ok s ->
  Forall2 same_item (add_items x []) (add_items x' []).
Proof.
  intros E E' h h' i i' x x' s Hr Hr' HE HE' Hx Hx' Hp Hp' Hs Hs'.
  destruct (C52_read_back _ _ _ _ _ Hr HE Hx Hp Hs) as (its & H1 & H2). destruct (C52_read_back _ _ _ _ _ Hr' HE' Hx' Hp' Hs') as (its' & H1' & H2').
  rewrite H1 in H1'. injection H1' as <-. clear -H2 H2'. revert H2'. generalize (add_items x' []) as b. induction H2 as [|i a its l Hi _ IH]; intros b Hb; inversion Hb; subst; constructor; [|by apply IH].
  eapply same_trans; [|eassumption]. by apply same_sym.
Qed.
Print Assumptions C52_injective.
(** The angle brackets in the printed form are those of the tags and comments. *)
Lemma occ_app c a b : occurrences c (a ++ b) = (occurrences c a + occurrences c b)%nat.
Proof. unfold occurrences. by rewrite List.filter_app, app_length. Qed.
Lemma occ_none c a : ~ In c a -> occurrences c a = 0%nat.
Proof.
  unfold occurrences. induction a as [|x a IH]; intros H; [done|]. cbn. destruct (N.eqb_spec c x) as [->|_]; [exfalso; apply H; by left|]. apply IH. intros Hin. apply H. by right.
Qed.
Lemma writable_no n c : writable n -> c = 60%N \/ c = 62%N -> occurrences c n = 0%nat.
Proof.
  intros [Hn _] Hc. apply occ_none. intros Hin. apply elem_of_list_In in Hin. rewrite Forall_forall in Hn.
  destruct (Hn c Hin) as (_ & H1 & _ & H2). by destruct Hc as [->| ->].
Qed.
Lemma occ_written c : c = 60%N \/ c = 62%N -> forall x s, well_named x -> bare x -> written x s -> occurrences c s = tags x.
Proof.
  intros Hc. assert (Hcc : forall v d, escaped v d -> occurrences c d = 0%nat) by (intros v d H; apply occ_none; eapply escaped_no; [exact H|tauto]).
  assert (L1 : (occurrences c (lit "<") + occurrences c (lit ">") = 1)%nat) by (by destruct Hc as [->| ->]).
  assert (L2 : (occurrences c (lit "</") + occurrences c (lit ">") = 1)%nat) by (by destruct Hc as [->| ->]).
  assert (L3 : (occurrences c (lit "<!--") + occurrences c (lit "-->") = 1)%nat) by (by destruct Hc as [->| ->]).
  assert (L4 : (occurrences c (lit " ") = 0)%nat) by (by destruct Hc as [->| ->]).
  assert (L5 : (occurrences c (lit "=") = 0)%nat) by (by destruct Hc as [->| ->]).
  assert (L6 : (occurrences c (lit """") = 0)%nat) by (by destruct Hc as [->| ->]).
  apply (xml_ind' (fun x => forall s, well_named x -> bare x -> written x s -> occurrences c s = tags x)).
  - intros n a ks IH s Hn Hb Hw. inversion Hn as [? ? ? Hnn Hna Hnk| | | |]; subst. inversion Hb as [? ? ? Hbk| |]; subst. inversion Hw as [? ? a1 parts ? texts P1 F1 T1| | | | | | | | | | | | | | | |]; subst.
    assert (Ha : occurrences c (concat (map (app (lit " ")) parts)) = 0%nat).
    { assert (Hna1 : Forall (fun p => writable p.1) a1) by (by rewrite <- P1). clear -F1 Hna1 L4 L5 L6 Hcc Hc.
      induction F1 as [|[nm v] s a1 parts (d & Hd & ->) _ IHf]; [done|]. inversion Hna1; subst. cbn [map concat fst] in *. unfold in_quotes.
      rewrite !occ_app, (Hcc _ _ Hd), L4, L5, L6, (writable_no nm c) by done. by rewrite IHf. }
    assert (Hk : occurrences c (concat texts) = list_sum (map tags ks)).
    { clear -IH T1 Hnk Hbk. induction T1 as [|k t ks ts Hkt _ IHk]; [done|]. inversion IH; subst. inversion Hnk; subst. inversion Hbk; subst. cbn [concat map list_sum fold_right]. rewrite occ_app.
      f_equal; [auto|]. by apply IHk. }
    rewrite !occ_app, Ha, Hk, (writable_no n c) by done. cbn [tags]. lia.
  - intros d dt ks _ _ s Hn. inversion Hn.
  - intros ks _ s Hn. inversion Hn.
  - intros x. destruct x; try exact Logic.I; intros s _ Hn; inversion Hn; subst; intros Hw; inversion Hw; subst; [by eapply Hcc|done| |done].
    rewrite !occ_app. cbn [tags]. match goal with H : escaped _ _ |- _ => rewrite (Hcc _ _ H) end. lia.
Qed.
Lemma bare_plain x : bare x -> plain x.
Proof.
  revert x. fix IH 2. intros x [n a ks Hk|v|v]; constructor. induction Hk; constructor; [by apply IH|done].
Qed.
Theorem C52_brackets : forall E h i x s c, reachable h -> wf_env E -> stands_for E h i x -> bare x -> to_string E h i = Ok s ->
  c = 60%N \/ c = 62%N -> occurrences c s = tags x.
Proof.
  intros E h i x s c Hr HE Hx Hp Hs Hc. destruct (C51_prints_only _ _ _ _ Hr HE Hs) as (y & Hy & Hw). rewrite <- (stands_fun _ _ _ _ _ Hx Hy) in Hw.
  apply occ_written; [done| |done|done]. apply reachable_inv in Hr. eapply stands_named; [done..|]. by apply bare_plain.
Qed.
Print Assumptions C52_brackets.
Example C52_example : bare ex_show_doc /\ plain ex_show_doc /\ tags ex_show_doc = 5%nat /\
  read_back (lit "<a k=""1&#60;2"" l=""x"">1 &#38; 2<!--a&#62;b--><b>t</b></a>") = Some (add_items ex_show_doc []) /\
  add_items ex_show_doc [] = [Element (lit "a") [(lit "k", lit "1<2"); (lit "l", lit "x")]
    [Text (lit "1 & 2"); Comment (lit "a>b"); Element (lit "b") [] [Text (lit "t")]]].
Proof. split; [by repeat constructor|]. split; [by repeat constructor|]. by vm_compute. Qed.

Definition ex_sections_ops : list op :=
  [OCreateDocument None None None options_new; OCreateElement 0 (lit "a"); OCreateCData 0 (lit "<b>&]]"); OAppendChild 1 2; OCreatePI 0 (lit "p") (Some (lit "<x> "));
   OCreateText 0 (lit "<"); OAppendChild 1 4; OCreatePI 0 (lit "p") (Some (lit " <x")); OAppendChild 1 5; OCreatePI 0 (lit "q") None; OAppendChild 1 6].
Definition ex_sections : heap := default empty_heap (run env0 ex_sections_ops empty_heap).
Definition ex_sections_doc : xml := XmlElement (lit "a") [] [XmlCData (Some (lit "<b>&]]")); XmlText (Some (lit "<")); XmlPI (lit "p") (Some (lit " <x")); XmlPI (lit "q") None].
Example C52_sections_example : reachable ex_sections /\ stands_for env0 ex_sections 1 ex_sections_doc /\ plain ex_sections_doc /\
  to_string env0 ex_sections 1 = Ok (lit "<a><![CDATA[ <b>&]] ]]>&#60;<?p  <x?><?q?></a>") /\
  read_back (lit "<a><![CDATA[ <b>&]] ]]>&#60;<?p  <x?><?q?></a>") = Some (add_items ex_sections_doc []) /\
  add_items ex_sections_doc [] = [Element (lit "a") [] [CData (lit " <b>&]] "); Text (lit "<"); Pi (lit "p  <x"); Pi (lit "q")]].
Proof.
  split; [apply (run0_reachable ex_sections_ops); by vm_compute|]. split; [unfold ex_sections_doc; show|]. split; [|by vm_compute].
  apply pl_element. repeat apply List.Forall_cons; [|apply pl_text| |by apply pl_pi|apply List.Forall_nil].
  - apply pl_cdata. intros s a b Hs H. assert (Hl : length s = length (a ++ lit "]]>" ++ b)) by (by rewrite H). rewrite !app_length in Hl. assert (Hs' : s = lit "<b>&]]") by congruence. rewrite Hs' in Hl, H. cbn in Hl.
    destruct a as [|? [|? [|? [|? a]]]]; [vm_compute in H; congruence..|cbn in Hl; lia].
  - apply pl_pi. intros s [= <-]. vm_compute. intuition discriminate.
Qed.

(** CDATA sections and processing instructions are printed as they are.  With what ends them inside,
    documents of different shape print the same, so the statement fails for them. *)
Definition ex_inject_ops : list op :=
  [OCreateDocument None None None options_new; OCreateElement 0 (lit "a"); OCreateCData 0 (lit "x ]]><b></b><![CDATA[ y"); OAppendChild 1 2;
   OCreateElement 0 (lit "a"); OCreateCData 0 (lit "x"); OAppendChild 3 4; OCreateElement 0 (lit "b"); OAppendChild 3 5; OCreateCData 0 (lit "y"); OAppendChild 3 6;
   OCreateElement 0 (lit "a"); OCreatePI 0 (lit "p") (Some (lit "x?><b></b><?q y")); OAppendChild 7 8;
   OCreateElement 0 (lit "a"); OCreatePI 0 (lit "p") (Some (lit "x")); OAppendChild 9 10; OCreateElement 0 (lit "b"); OAppendChild 9 11; OCreatePI 0 (lit "q") (Some (lit "y")); OAppendChild 9 12].
Definition ex_inject : heap := default empty_heap (run env0 ex_inject_ops empty_heap).
Theorem C52_cdata_refuted : exists E h i j s c d, reachable h /\ wf_env E /\ to_string E h i = Ok s /\ to_string E h j = Ok s /\
  child_nodes h i = Ok [c] /\ node_type_of h c = Ok NCData /\ child_nodes h j = Ok d /\ length d = 3%nat /\
  get_elements_by_tag_name h i (lit "b") = Ok [] /\ get_elements_by_tag_name h j (lit "b") = Ok [5].
Proof.
  exists env0, ex_inject, 1, 3, (lit "<a><![CDATA[ x ]]><b></b><![CDATA[ y ]]></a>"), 2, [4; 5; 6].
  split; [apply (run0_reachable ex_inject_ops); by vm_compute|]. split; [exact wf_env0|]. by vm_compute.
Qed.
Print Assumptions C52_cdata_refuted.
Theorem C52_instruction_refuted : exists E h i j s c d, reachable h /\ wf_env E /\ to_string E h i = Ok s /\ to_string E h j = Ok s /\
  child_nodes h i = Ok [c] /\ node_type_of h c = Ok NProcessingInstruction /\ child_nodes h j = Ok d /\ length d = 3%nat /\
  get_elements_by_tag_name h i (lit "b") = Ok [] /\ get_elements_by_tag_name h j (lit "b") = Ok [11].
Proof.
  exists env0, ex_inject, 7, 9, (lit "<a><?p x?><b></b><?q y?></a>"), 8, [10; 11; 12].
  split; [apply (run0_reachable ex_inject_ops); by vm_compute|]. split; [exact wf_env0|]. by vm_compute.
Qed.
Print Assumptions C52_instruction_refuted.
