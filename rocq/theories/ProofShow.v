(** * ProofShow: printing writes the abstract document; the reader reads it back *)
From Coq Require Import Lia Permutation.
From Verif Require Import SpecShow ProofText ProofAttr ProofName PropName ProofInv ProofSteps ProofOps ProofTree ProofElem ProofWalk ProofRead.

Lemma xml_ind' (P : xml -> Prop) :
  (forall n a ks, Forall P ks -> P (XmlElement n a ks)) ->
  (forall d x ks, match x with None => True | Some y => P y end -> Forall P ks -> P (XmlDocument d x ks)) ->
  (forall ks, Forall P ks -> P (XmlFragment ks)) ->
  (forall x, match x with XmlElement _ _ _ | XmlDocument _ _ _ | XmlFragment _ => True | _ => P x end) ->
  forall x, P x.
Proof.
  intros He Hd Hf Hr. fix IH 1. intros x.
  assert (L : forall ks, Forall P ks) by (induction ks; constructor; [apply IH|assumption]).
  pose proof (Hr x) as Hx. destruct x; try exact Hx; [by apply He|apply Hd; [destruct dt; [apply IH|done]|done]|by apply Hf].
Qed.

(** ** The loops *)
Lemma concat_res_ok {A} (f : A -> res str) l r :
  concat_res (fun x => let? s := f x in Ok [s]) l = Ok r <-> Forall2 (fun x s => f x = Ok s) l r.
Proof.
  revert r. induction l as [|x l IH]; intros r.
  - cbn. split; [intros [= <-]; constructor|]. intros H. by inversion H.
  - cbn [concat_res]. destruct (f x) as [s| | |] eqn:Hf; cbn [rbind].
    2-4: split; [done|]; intros H; inversion H; congruence.
    destruct (concat_res _ l) as [r'| | |] eqn:Hr; cbn [rbind].
    2-4: split; [done|]; intros H; inversion H as [|? ? ? ? _ H']; subst; apply IH in H'; done.
    split; [intros [= <-]; constructor; [done|by apply IH]|]. intros H. inversion H as [|? ? ? ? H1 H2]; subst.
    apply IH in H2. rewrite Hf in H1. injection H1 as ->. injection H2 as ->. done.
Qed.
Lemma fmt_list_ok {A} (f : A -> res str) l s :
  fmt_list f l = Ok s <-> exists parts, Forall2 (fun x p => f x = Ok p) l parts /\ s = concat parts.
Proof.
  unfold fmt_list. split.
  - intros H. destruct (concat_res _ l) as [ps| | |] eqn:Hp; cbn in H; try done. injection H as <-. exists ps. split; [|done].
    by apply concat_res_ok.
  - intros (ps & Hp & ->). apply concat_res_ok in Hp. by rewrite Hp.
Qed.
Lemma Forall2_map_l' {A B C} (g : A -> B) (R : B -> C -> Prop) l l' : Forall2 R (map g l) l' <-> Forall2 (fun x => R (g x)) l l'.
Proof.
  split; [|induction 1; by constructor]. revert l'. induction l as [|x l IH]; intros l' H; inversion H; subst; constructor; auto.
Qed.
Lemma Forall2_exists {A B} (R : A -> B -> Prop) l : (forall x, In x l -> exists y, R x y) -> exists l', Forall2 R l l'.
Proof.
  induction l as [|x l IH]; intros H; [exists []; constructor|]. destruct (H x (or_introl eq_refl)) as [y Hy].
  destruct IH as [l' Hl']; [intros z Hz; apply H; by right|]. exists (y :: l'). by constructor.
Qed.

(** ** One attribute *)
Lemma attr_fmt E h a n : h_nodes h !! a = Some n -> n_type n = NAttribute -> forall s,
  fmt_attribute E h a = Ok s -> exists p, attr_stands_for E h a p /\ written_attr p s.
Proof.
  intros Hn Ht s H. unfold fmt_attribute in H. rewrite (get_node_some _ _ _ Hn) in H. cbn [rbind] in H.
  destruct (attr_value E h a) as [o| | |] eqn:Ho; cbn [rbind] in H; try done. injection H as <-.
  destruct o as [s'|].
  - pose proof Ho as Ho'. unfold attr_value in Ho'. rewrite (get_node_some _ _ _ Hn) in Ho'. cbn [rbind] in Ho'.
    destruct (is_nil (n_children n)); [done|]. destruct (attr_text h (n_children n)) as [raw| | |]; cbn [rbind] in Ho'; try done.
    destruct (normalize_attribute_value _ _ _ _ _) as [w| | |]; cbn [rbind] in Ho'; try done. injection Ho' as <-.
    exists (name_to_string (n_name n), w). split; [exists n, (Some (escape w)); split_and!; try done; apply escape_escaped|].
    exists (escape w). split; [apply escape_escaped|done].
  - exists (name_to_string (n_name n), []). split; [by exists n, None|]. exists []. split; [constructor|done].
Qed.
Lemma attr_fmt_some E h a p : attr_stands_for E h a p -> exists s, fmt_attribute E h a = Ok s.
Proof.
  intros (n & o & Hn & _ & _ & Ho & _). unfold fmt_attribute. rewrite (get_node_some _ _ _ Hn), Ho. cbn [rbind]. eauto.
Qed.
Lemma attr_stands_fun E h a p q : attr_stands_for E h a p -> attr_stands_for E h a q -> p = q.
Proof.
  intros (n & o & Hn & _ & Hp & Ho & He) (n' & o' & Hn' & _ & Hq & Ho' & He'). rewrite Hn in Hn'. injection Hn' as <-.
  rewrite Ho in Ho'. injection Ho' as <-. destruct p as [p1 p2], q as [q1 q2]; cbn in *. f_equal; [congruence|].
  destruct o as [s|]; [|congruence]. apply escape_inj. rewrite (escaped_fun _ _ _ (escape_escaped p2) He). symmetry.
  apply (escaped_fun q2); [apply escape_escaped|done].
Qed.

(** ** Reading the state is a function *)
Lemma stands_fun E h : forall x i y, stands_for E h i x -> stands_for E h i y -> x = y.
Proof.
  assert (L : forall ks, Forall (fun x => forall i y, stands_for E h i x -> stands_for E h i y -> x = y) ks ->
    forall cs ks', Forall2 (stands_for E h) cs ks -> Forall2 (stands_for E h) cs ks' -> ks = ks').
  { induction 1 as [|k ks Hk _ IH]; intros cs ks' H H'; inversion H; subst; inversion H'; subst; [done|]. f_equal; eauto. }
  assert (A : forall l avs avs', Forall2 (attr_stands_for E h) l avs -> Forall2 (attr_stands_for E h) l avs' -> avs = avs').
  { induction l; intros avs avs' H H'; inversion H; subst; inversion H'; subst; [done|]. f_equal; eauto using attr_stands_fun. }
  assert (B : forall i n p, h_nodes h !! i = Some n -> attr_stands_for E h i p -> n_type n = NAttribute).
  { intros i n p Hn (n' & o & Hn' & Ht & _). congruence. }
  assert (D : forall i n n', h_nodes h !! i = Some n -> h_nodes h !! i = Some n' -> n = n') by (intros; congruence).
  apply (xml_ind' (fun x => forall i y, stands_for E h i x -> stands_for E h i y -> x = y)); [intros nm a ks IH i y Hx Hy|intros d dt ks Hdt IH i y Hx Hy|intros ks IH i y Hx Hy|intros x].
  4: destruct x; try exact Logic.I; intros i y Hx Hy.
  all: match goal with H : stands_for _ _ _ _, H' : stands_for _ _ _ _ |- _ => inversion H; subst; inversion H'; subst end;
    repeat match goal with
    | H : attr_stands_for _ _ ?i _, H' : h_nodes _ !! ?i = Some _ |- _ => pose proof (B _ _ _ H' H); clear H
    | H : h_nodes _ !! ?i = Some _, H' : h_nodes _ !! ?i = Some _ |- _ => pose proof (D _ _ _ H H'); subst; clear H'
    end; try congruence.
  - f_equal; [eapply A; [eassumption|]; congruence|eapply L; eassumption].
  - f_equal; [congruence|]. eapply L; eassumption.
  - f_equal; [congruence|f_equal|eapply L; eassumption].
    match goal with H : doc_type h i = Ok (Some ?t), H' : doc_type h i = Ok (Some ?t') |- _ => rewrite H in H'; injection H' as -> end. eauto.
  - f_equal. eapply L; eassumption.
  - match goal with H : attr_stands_for _ _ _ ?p, H' : attr_stands_for _ _ _ ?q |- _ => pose proof (attr_stands_fun _ _ _ _ _ H H'); subst end. done.
Qed.

(** ** What is printed is the abstract document *)
Lemma attrs_inv h i n attrs : Inv h -> h_nodes h !! i = Some n -> attributes h i = Ok attrs ->
  forall k a, In (k, a) attrs -> exists na, h_nodes h !! a = Some na /\ n_type na = NAttribute /\ n_name na = k.
Proof.
  intros HI Hn Ha k a Hin. unfold attributes in Ha. rewrite (get_node_some _ _ _ Hn) in Ha. cbn in Ha. injection Ha as <-.
  destruct (inv_node h HI i n Hn) as (Hx & _). unfold ext_ok in Hx. destruct (is_type NElement n); [|done].
  destruct (n_ext n); try done. destruct Hx as (_ & _ & Hx & _). destruct (Hx k a Hin) as (s & Hs & Ht & Hk & _).
  apply info_inv in Hs as (na & Hna & <-). cbn in *. eauto.
Qed.
Lemma fmt_written E h : Inv h -> wf_env E -> forall fuel i s, fmt_node fuel E h i = Ok s -> exists x, stands_for E h i x /\ written x s.
Proof.
  intros HI HE. induction fuel as [|k IH]; intros i s H; [done|]. cbn [fmt_node] in H.
  destruct (h_nodes h !! i) as [n|] eqn:Hn; [|unfold get_node in H; by rewrite Hn in H].
  rewrite (get_node_some _ _ _ Hn) in H. cbn [rbind] in H.
  assert (L : forall l s, fmt_list (fmt_node k E h) l = Ok s -> exists ks ts, Forall2 (stands_for E h) l ks /\ Forall2 written ks ts /\ s = concat ts).
  { intros l s' Hl. apply fmt_list_ok in Hl as (ts & Hl & ->). clear -IH Hl.
    induction Hl as [|c t l ts Hc _ IHl]; [exists [], []; split_and!; constructor|]. destruct IHl as (ks & ts' & H1 & H2 & H3).
    destruct (IH _ _ Hc) as (x & Hx & Hw). exists (x :: ks), (t :: ts'). split_and!; [by constructor|by constructor|]. cbn. by rewrite H3. }
  destruct (inv_node h HI i n Hn) as (Hx & _ & _ & _ & Hnm). unfold ext_ok in Hx. unfold name_ok in Hnm.
  destruct (n_type n) eqn:Ht.
  - (* element *)
    destruct (attributes h i) as [attrs| | |] eqn:Ha; cbn [rbind] in H; try done.
    destruct (fmt_list _ (e_ord_attr E attrs)) as [a| | |] eqn:Hl; cbn [rbind] in H; try done.
    destruct (fmt_list _ (n_children n)) as [c| | |] eqn:Hc; cbn [rbind] in H; try done. injection H as <-.
    destruct (L _ _ Hc) as (ks & ts & Hks & Hts & ->).
    apply fmt_list_ok in Hl as (ps & Hps & ->).
    assert (Hav : exists avs parts, Forall2 (attr_stands_for E h) (map snd (e_ord_attr E attrs)) avs /\ Forall2 written_attr avs parts /\ ps = map (app (lit " ")) parts).
    { assert (Hall : forall q, In q (e_ord_attr E attrs) -> exists na, h_nodes h !! q.2 = Some na /\ n_type na = NAttribute).
      { intros [k' a'] Hq. rewrite (In_perm _ _ _ (wf_ord_attr E HE attrs)) in Hq.
        destruct (attrs_inv h i n attrs HI Hn Ha _ _ Hq) as (na & ? & ? & _). eauto. }
      clear -Hps Hall. induction Hps as [|q p l ps Hq _ IHl]; [exists [], []; split_and!; constructor|].
      destruct IHl as (avs & parts & H1 & H2 & ->); [intros ? ?; apply Hall; by right|].
      destruct (Hall q (or_introl eq_refl)) as (na & Hna & Hta).
      destruct (fmt_node k E h q.2) as [s'| | |] eqn:Hf; cbn [rbind] in Hq; try done. injection Hq as <-.
      destruct k as [|k]; [done|]. cbn [fmt_node] in Hf. rewrite (get_node_some _ _ _ Hna) in Hf. cbn [rbind] in Hf. rewrite Hta in Hf.
      destruct (attr_fmt E h q.2 na Hna Hta s' Hf) as (p & Hp & Hw). exists (p :: avs), (s' :: parts). split_and!; [by constructor|by constructor|done]. }
    destruct Hav as (avs' & parts & Havs & Hw & ->).
    destruct (Permutation_Forall2 (Permutation_map snd (wf_ord_attr E HE attrs)) Havs) as (avs & Hperm & Havs').
    exists (XmlElement (name_to_string (n_name n)) avs ks). split; [by eapply sf_element|]. eapply wr_element; [symmetry; exact Hperm|done|done].
  - (* attribute *)
    destruct (attr_fmt E h i n Hn Ht s H) as ([p1 p2] & Hp & Hw). exists (XmlAttribute p1 p2). split; [by apply (sf_attribute E h i (p1, p2))|by constructor].
  - (* text *)
    unfold fmt_text, data in H. rewrite (get_node_some _ _ _ Hn) in H. cbn [rbind] in H. injection H as <-.
    exists (XmlText (n_value n)). split; [by constructor|]. destruct (n_value n) as [v|]; [|constructor].
    unfold is_type. rewrite Ht. constructor. apply escape_escaped.
  - (* cdata *)
    unfold fmt_cdata, data in H. rewrite (get_node_some _ _ _ Hn) in H. cbn [rbind] in H. injection H as <-.
    exists (XmlCData (n_value n)). split; [by constructor|]. destruct (n_value n) as [v|]; [|constructor].
    unfold is_type. rewrite Ht. constructor.
  - (* entity reference *)
    injection H as <-. eexists. split; [by eapply sf_reference|]. constructor.
  - (* entity *)
    injection H as <-. unfold fmt_entity. destruct (n_ext n) as [| | | | |pub sys nota|] eqn:He; try done; try (by destruct Hx).
    eexists. split; [by eapply sf_entity|]. destruct pub, sys; match goal with |- written (XmlEntity ?a ?b ?c ?d ?e) _ => exact (wr_entity a b c d e) end.
  - (* PI *)
    injection H as <-. unfold fmt_processing_instruction. eexists. split; [by eapply sf_pi|]. destruct (n_value n); constructor.
  - (* comment *)
    unfold fmt_comment, data in H. rewrite (get_node_some _ _ _ Hn) in H. cbn [rbind] in H. injection H as <-.
    exists (XmlComment (n_value n)). split; [by constructor|]. destruct (n_value n) as [v|]; [|constructor].
    unfold is_type. rewrite Ht. constructor. apply escape_escaped.
  - (* document *)
    destruct (xml_declaration h i) as [decl| | |] eqn:Hd; cbn [rbind] in H; try done.
    destruct (doc_type h i) as [dt| | |] eqn:Hdt; cbn [rbind] in H; try done. destruct dt as [t|].
    + destruct (fmt_node k E h t) as [st| | |] eqn:Hst; cbn [rbind] in H; try done.
      destruct (fmt_list _ (n_children n)) as [c| | |] eqn:Hc; cbn [rbind] in H; try done. injection H as <-.
      destruct (L _ _ Hc) as (ks & ts & Hks & Hts & ->). destruct (IH _ _ Hst) as (x & Hxx & Hwx).
      exists (XmlDocument decl (Some x) ks). split; [by eapply sf_document_typed|]. by constructor.
    + cbn [rbind] in H. destruct (fmt_list _ (n_children n)) as [c| | |] eqn:Hc; cbn [rbind] in H; try done. injection H as <-.
      destruct (L _ _ Hc) as (ks & ts & Hks & Hts & ->). exists (XmlDocument decl None ks). split; [by eapply sf_document|]. by constructor.
  - (* doctype *)
    destruct (n_ext n) as [| | |es ns pub sys sub| | |] eqn:He; try done; try (by destruct Hx). destruct Hx as (_ & -> & ->).
    assert (Hnil : e_ord_attr E [] = []) by (apply Permutation_nil; symmetry; apply (wf_ord_attr E HE)). rewrite Hnil in H. cbn in H. injection H as <-.
    eexists. split; [by eapply sf_doctype|].
    replace (fmt_opt _ pub) with (after (lit " PUBLIC ") pub) by (by destruct pub). replace (fmt_opt _ sys) with (after (lit " SYSTEM ") sys) by (by destruct sys).
    destruct sub; match goal with |- written (XmlDocumentType ?a ?b ?c ?d) _ => exact (wr_doctype a b c d) end.
  - (* fragment *)
    destruct (fmt_list _ (n_children n)) as [c| | |] eqn:Hc; cbn [rbind] in H; try done. injection H as <-.
    destruct (L _ _ Hc) as (ks & ts & Hks & Hts & ->). exists (XmlFragment ks). split; [by eapply sf_fragment|]. rewrite Hnm. by constructor.
  - (* notation *)
    injection H as <-. unfold fmt_notation. destruct (n_ext n) as [| | | | | |pub sys] eqn:He; try done; try (by destruct Hx).
    eexists. split; [by eapply sf_notation|]. destruct pub, sys; match goal with |- written (XmlNotation ?a ?b ?c) _ => exact (wr_notation a b c) end.
Qed.

(** ** A node without cycles below it is printed *)
Lemma Forall2_In_l {A B} (R : A -> B -> Prop) l l' x : Forall2 R l l' -> In x l -> exists y, R x y.
Proof. intros H. induction H; [done|]. intros [<-|Hin]; eauto. Qed.
Lemma fmt_list_all {A} (f : A -> res str) l : (forall x, In x l -> exists s, f x = Ok s) -> exists s, fmt_list f l = Ok s.
Proof.
  intros H. destruct (Forall2_exists (fun x s => f x = Ok s) l H) as [ps Hps]. exists (concat ps). apply fmt_list_ok. eauto.
Qed.
Lemma fmt_total E h i t : Inv h -> wf_env E -> tree_of h i t -> forall fuel, (depth t < fuel)%nat -> forall x, stands_for E h i x -> exists s, fmt_node fuel E h i = Ok s.
Proof.
  intros HI HE. revert i t. apply (tree_of_ind' h (fun i t => forall fuel, (depth t < fuel)%nat -> forall x, stands_for E h i x -> exists s, fmt_node fuel E h i = Ok s)).
  intros i cs ts Hc _ IH fuel Hf x Hx. destruct fuel as [|k]; [lia|].
  assert (Hk1 : exists k1, k = S k1) by (cbn in Hf; destruct k as [|k1]; [lia|eauto]).
  assert (L : forall kids, Forall2 (stands_for E h) cs kids -> exists s, fmt_list (fmt_node k E h) cs = Ok s).
  { intros kids Hk. apply fmt_list_all. intros c Hin.
    assert (Hd : forall t, In t ts -> (depth t < k)%nat) by (intros t Ht; pose proof (depth_child t ts i Ht); lia).
    clear -IH Hin Hk Hd. revert kids Hk. induction IH as [|c' t cs ts Hc' _ IHf]; intros kids Hk; [done|]. inversion Hk; subst.
    destruct Hin as [<-|Hin]; [eapply Hc'; [apply Hd; by left|eassumption]|]. eapply IHf; [done| |eassumption]. intros; apply Hd; by right. }
  cbn [fmt_node]. destruct Hx as [? n ? ? ? Hn Ht Ha Hav Hk|? n Hn Ht|? n Hn Ht|? n Hn Ht|? n Hn Ht|? n Hn Ht|? n ? ? Hn Ht Hd Hdt Hk|? n ? ? ? ? Hn Ht Hd Hdt Hx Hk|? n ? ? ? Hn Ht He|? n ? Hn Ht Hk|? p Hp|? n ? ? ? Hn Ht He|? n ? ? Hn Ht He];
    try (rewrite (get_node_some _ _ _ Hn); cbn [rbind]; rewrite Ht);
    try (rewrite (child_nodes_some _ _ _ Hn) in Hc; injection Hc as <-).
  - rewrite Ha. cbn [rbind]. destruct (fmt_list_all (fun p => let? s := fmt_node k E h p.2 in Ok (lit " " ++ s)) (e_ord_attr E attrs)) as [s1 ->].
    { intros [k' a] Hin. rewrite (In_perm _ _ _ (wf_ord_attr E HE attrs)) in Hin.
      assert (Hin' : In a (map snd attrs)) by (by apply (in_map snd) in Hin).
      destruct (Forall2_In_l _ _ _ _ Hav Hin') as (p & Hp). pose proof Hp as (na & o & Hna & Hta & _).
      destruct (attr_fmt_some _ _ _ _ Hp) as [s Hs]. destruct Hk1 as [k1 ->]. cbn [snd fmt_node]. rewrite (get_node_some _ _ _ Hna). cbn [rbind]. rewrite Hta, Hs. cbn [rbind]. eauto. }
    cbn [rbind]. destruct (L _ Hk) as [s2 ->]. cbn [rbind]. eauto.
  - unfold fmt_text, data. rewrite (get_node_some _ _ _ Hn). cbn [rbind]. eauto.
  - unfold fmt_cdata, data. rewrite (get_node_some _ _ _ Hn). cbn [rbind]. eauto.
  - unfold fmt_comment, data. rewrite (get_node_some _ _ _ Hn). cbn [rbind]. eauto.
  - eauto.
  - eauto.
  - rewrite Hd, Hdt. cbn [rbind]. destruct (L _ Hk) as [s2 ->]. cbn [rbind]. eauto.
  - rewrite Hd, Hdt. cbn [rbind]. destruct (inv_node h HI i n Hn) as (Hxx & _).
    assert (Htt : exists nt, h_nodes h !! t = Some nt /\ n_type nt = NDocumentType).
    { unfold doc_type in Hdt. rewrite (get_node_some _ _ _ Hn) in Hdt. cbn [rbind] in Hdt. unfold ext_ok in Hxx.
      destruct (n_ext n) as [| |decl' dt' m o| | | |]; try done. injection Hdt as ->. destruct Hxx as (_ & Hxx & _).
      destruct (Hxx t eq_refl) as (st & Hst & Htt). apply info_inv in Hst as (nt & Hnt & <-). eauto. }
    destruct Htt as (nt & Hnt & Htt). destruct (L _ Hk) as [s2 Hs2]. destruct Hk1 as [k1 ->]. cbn [fmt_node] in *. rewrite (get_node_some _ _ _ Hnt). cbn [rbind]. rewrite Htt.
    destruct (inv_node h HI t nt Hnt) as (Hxt & _). unfold ext_ok in Hxt. rewrite Htt in Hxt.
    destruct (n_ext nt) as [| | |es ns pub sys sub| | |]; try done; try (by destruct Hxt). destruct Hxt as (_ & -> & ->).
    assert (Hnil : e_ord_attr E [] = []) by (apply Permutation_nil; symmetry; apply (wf_ord_attr E HE)). rewrite Hnil. cbn [fmt_list concat_res rbind].
    rewrite Hs2. cbn [rbind]. eauto.
  - rewrite He.
    assert (Hnil : e_ord_attr E [] = []) by (apply Permutation_nil; symmetry; apply (wf_ord_attr E HE)). rewrite Hnil. cbn [fmt_list concat_res rbind]. eauto.
  - destruct (L _ Hk) as [s2 ->]. cbn [rbind]. eauto.
  - pose proof Hp as (na & o & Hna & Hta & _). rewrite (get_node_some _ _ _ Hna). cbn [rbind]. rewrite Hta. by eapply attr_fmt_some.
  - eauto.
  - eauto.
Qed.
Lemma readable_stands E h a na : h_nodes h !! a = Some na -> n_type na = NAttribute -> readable E h a -> exists p, attr_stands_for E h a p.
Proof.
  intros Hn Ht (o & Ho). assert (H : exists s, fmt_attribute E h a = Ok s).
  { unfold fmt_attribute. rewrite (get_node_some _ _ _ Hn), Ho. cbn [rbind]. eauto. }
  destruct H as (s & Hs). destruct (attr_fmt _ _ _ _ Hn Ht _ Hs) as (p & Hp & _). eauto.
Qed.
Lemma stands_total E h i t : Inv h -> tree_of h i t -> values_readable E h i -> exists x, stands_for E h i x.
Proof.
  intros HI. revert i t. apply (tree_of_ind' h (fun i t => values_readable E h i -> exists x, stands_for E h i x)).
  intros i cs ts Hc Hf IH Hr. apply child_nodes_ok in Hc as (n & Hn & Hcs).
  assert (L : exists kids, Forall2 (stands_for E h) (n_children n) kids).
  { apply Forall2_exists. intros c Hin. rewrite Hcs in Hin.
    assert (Hch : child h i c) by (exists cs; split; [rewrite <- Hcs; by apply child_nodes_some|done]).
    assert (Hrc : values_readable E h c) by (intros j Hj; apply Hr; eapply rtc_l; [exact Hch|exact Hj]).
    clear -IH Hin Hrc. induction IH as [|c' t cs ts Hc' _ IHf]; [done|]. destruct Hin as [<-|Hin]; auto. }
  destruct L as [kids Hk]. destruct (Hr i (rtc_refl _ _)) as [Hra Hrb].
  destruct (inv_node h HI i n Hn) as (Hx & _). unfold ext_ok in Hx.
  destruct (n_type n) eqn:Ht.
  - destruct (el_ext h i n HI Hn Ht) as (attrs & nss & He).
    assert (Ha : attributes h i = Ok attrs).
    { unfold attributes. rewrite (get_node_some _ _ _ Hn). cbn [rbind]. unfold is_type. by rewrite Ht, He. }
    destruct (Forall2_exists (attr_stands_for E h) (map snd attrs)) as [avs Havs].
    { intros a Hin. apply in_map_iff in Hin as ([k' a'] & <- & Hin). destruct (attrs_inv h i n attrs HI Hn Ha _ _ Hin) as (na & Hna & Hta & _).
      eapply readable_stands; [done|done|]. by eapply Hrb. }
    eexists. by eapply sf_element.
  - destruct (readable_stands E h i n Hn Ht) as [p Hp]; [apply Hra; unfold node_type_of; rewrite (get_node_some _ _ _ Hn); cbn; congruence|].
    exists (XmlAttribute p.1 p.2). by constructor.
  - eexists. by eapply sf_text.
  - eexists. by eapply sf_cdata.
  - eexists. by eapply sf_reference.
  - destruct (n_ext n) eqn:He; try done; try (by destruct Hx). eexists. by eapply sf_entity.
  - eexists. by eapply sf_pi.
  - eexists. by eapply sf_comment.
  - destruct (doc_ext h i n HI Hn Ht) as (decl & dt & m & o & He). rewrite He in Hx. destruct Hx as (_ & Hx & _).
    assert (Hd : xml_declaration h i = Ok decl) by (unfold xml_declaration; rewrite (get_node_some _ _ _ Hn); cbn [rbind]; by rewrite He).
    assert (Hdt : doc_type h i = Ok dt) by (unfold doc_type; rewrite (get_node_some _ _ _ Hn); cbn [rbind]; by rewrite He).
    destruct dt as [t|]; [|eexists; by eapply sf_document].
    destruct (Hx t eq_refl) as (st & Hst & Htt). apply info_inv in Hst as (nt & Hnt & <-). cbn in Htt.
    destruct (inv_node h HI t nt Hnt) as (Hxt & _). unfold ext_ok in Hxt. rewrite Htt in Hxt.
    destruct (n_ext nt) as [| | |es ns pub sys sub| | |] eqn:Het; try done; try (by destruct Hxt). destruct Hxt as (_ & -> & ->).
    eexists. eapply sf_document_typed; try done. by eapply sf_doctype.
  - destruct (n_ext n) eqn:He; try done; try (by destruct Hx). destruct Hx as (_ & -> & ->). eexists. by eapply sf_doctype.
  - eexists. by eapply sf_fragment.
  - destruct (n_ext n) eqn:He; try done; try (by destruct Hx). eexists. by eapply sf_notation.
Qed.

(** ** Attribute values do not depend on the hash order *)
Lemma span_ext (p q : N -> bool) s : (forall c, p c = q c) -> span p s = span q s.
Proof. intros H. induction s as [|c s IH]; [done|]. cbn. by rewrite H, IH. Qed.
Lemma find_token_env E E' s : but_hash_order E E' -> find_token E s = find_token E' s.
Proof.
  intros [Hl Hd].
  assert (H1 : forall c, is_entity_char E c = is_entity_char E' c) by (intros; unfold is_entity_char; by rewrite Hl, Hd).
  assert (H2 : forall c, is_entity_start E c = is_entity_start E' c) by (intros; unfold is_entity_start; by rewrite Hl).
  assert (M1 : match_entity E s = match_entity E' s) by (destruct s as [|c [|d t]]; [done|done|]; cbn [match_entity]; by rewrite H2, (span_ext _ _ t H1)).
  assert (M2 : match_char E s = match_char E' s) by (destruct s as [|c [|d t]]; [done|done|]; cbn [match_char]; by rewrite (span_ext _ _ t Hd)).
  unfold find_token. by rewrite M1, M2.
Qed.
Lemma scan_env E E' f g : but_hash_order E E' -> (forall t, f t = g t) -> forall s skip, scan E f s skip = scan E' g s skip.
Proof.
  intros HE Hfg. induction s as [|c s IH]; intros skip; [done|]. cbn [scan]. destruct skip; [|apply IH].
  rewrite (find_token_env E E') by done. destruct (find_token E' (c :: s)) as [[t n]|]; rewrite ?Hfg, !IH; done.
Qed.
Lemma normalize_env E E' rs cd : but_hash_order E E' -> forall k s, normalize_attribute_value k E rs cd s = normalize_attribute_value k E' rs cd s.
Proof.
  intros HE. induction k as [|k IH]; intros s; [done|]. cbn [normalize_attribute_value]. erewrite scan_env; [done|done|]. intros t; cbn beta.
  destruct t; [|done..]. destruct (rs _) as [[r|]| | |]; cbn [rbind]; rewrite ?IH; done.
Qed.
Lemma attr_value_env E E' h a : but_hash_order E E' -> attr_value E h a = attr_value E' h a.
Proof.
  intros HE. unfold attr_value. destruct (get_node h a); cbn [rbind]; [|done..]. destruct (is_nil _); [done|].
  destruct (attr_text h _); cbn [rbind]; [|done..]. by rewrite (normalize_env E E').
Qed.
#[local] Opaque attr_value.
Lemma attr_stands_env E E' h a p : but_hash_order E E' -> attr_stands_for E h a p -> attr_stands_for E' h a p.
Proof. intros HE (n & o & H1 & H2 & H3 & H4 & H5). exists n, o. split_and!; [exact H1|exact H2|exact H3| |exact H5]. by rewrite <- (attr_value_env E E' h a HE). Qed.
Lemma stands_env E E' h : but_hash_order E E' -> forall x i, stands_for E h i x -> stands_for E' h i x.
Proof.
  intros HE. apply (xml_ind' (fun x => forall i, stands_for E h i x -> stands_for E' h i x)).
  all: assert (L : forall ks, Forall (fun x => forall i, stands_for E h i x -> stands_for E' h i x) ks ->
    forall cs, Forall2 (stands_for E h) cs ks -> Forall2 (stands_for E' h) cs ks)
    by (induction 1 as [|k ks Hk _ IH]; intros cs H; inversion H; subst; constructor; auto).
  all: assert (A : forall l avs, Forall2 (attr_stands_for E h) l avs -> Forall2 (attr_stands_for E' h) l avs)
    by (induction 1; constructor; [by eapply attr_stands_env|done]).
  - intros nm a ks IH i Hx. inversion Hx; subst. eapply sf_element; [eassumption..|apply A; eassumption|apply L; assumption].
  - intros d dt ks Hdt IH i Hx. inversion Hx; subst; [eapply sf_document; [eassumption..|apply L; assumption]|].
    eapply sf_document_typed; [eassumption..|apply Hdt; assumption|apply L; assumption].
  - intros ks IH i Hx. inversion Hx; subst. eapply sf_fragment; [eassumption..|apply L; assumption].
  - intros x. destruct x; try exact Logic.I; intros i Hx; inversion Hx; subst;
      lazymatch goal with |- stands_for _ _ _ (XmlAttribute _ _) => apply sf_attribute; eapply attr_stands_env; eassumption | _ => econstructor; eassumption end.
Qed.

(** ** Names of live nodes can be read back *)
Lemma name_char_not c x : name_char c -> x = 32%N \/ x = 62%N \/ x = 61%N \/ x = 47%N \/ x = 33%N \/ x = 60%N \/ x = 63%N -> c <> x.
Proof.
  unfold name_char, name_start_char, rng, ascii_digit. intros H Hx ->.
  repeat (destruct H as [H|H]; [revert H Hx; clear; lia|]). revert H Hx; clear; lia.
Qed.
Lemma good_part_writable x : good_part x -> writable x.
Proof.
  intros (c & t & -> & Hc & _ & Ht).
  assert (N : forall y, name_char y -> y <> 32%N /\ y <> 62%N /\ y <> 61%N /\ y <> 60%N) by (intros y Hy; split_and!; apply name_char_not; tauto).
  assert (Hc' : name_char c) by (by left). split; [|split_and!; (eapply name_char_not; [exact Hc'|tauto])].
  constructor; [by apply N|]. eapply Forall_impl; [exact Ht|exact N].
Qed.
Lemma parsed_writable k : parsed_name k -> writable (name_to_string k).
Proof.
  intros [s Hs]. assert (Hp : name_to_string k = s) by (pose proof (C09_print_parse _ _ Hs) as H; by destruct k). rewrite Hp.
  apply C08_accepts in Hs as [(Ho & Hg & He)|(p & l & (-> & _) & Hgp & Hgl & He)]; [by apply good_part_writable|].
  apply good_part_writable in Hgp as [H1 H2], Hgl as [H3 H4]. split; [|by destruct p].
  apply Forall_app. split; [done|]. constructor; [lia|done].
Qed.
Lemma stands_named E h : Inv h -> forall x i, stands_for E h i x -> plain x -> well_named x.
Proof.
  intros HI. apply (xml_ind' (fun x => forall i, stands_for E h i x -> plain x -> well_named x)).
  - intros nm a ks IH i Hx Hp. inversion Hx as [? n attrs avs kids Hn Ht Ha Hav Hk| | | | | | | | | | | |]; subst. inversion Hp as [? ? ? Hpk| | | |]; subst.
    constructor.
    + apply parsed_writable. destruct (inv_node h HI i n Hn) as (_ & _ & _ & _ & Hnm). unfold name_ok in Hnm. by rewrite Ht in Hnm.
    + clear -HI Hav. induction Hav as [|a p l avs (na & o & Hna & Hta & Hnm & _) _ IHl]; constructor; [|done]. rewrite <- Hnm. apply parsed_writable.
      destruct (inv_node h HI a na Hna) as (_ & _ & _ & _ & Hnm'). unfold name_ok in Hnm'. by rewrite Hta in Hnm'.
    + clear -IH Hk Hpk. revert Hpk IH. induction Hk as [|c k cs ks Hck _ IHk]; intros Hpk IH; constructor; inversion Hpk; subst; inversion IH; subst; eauto.
  - intros d dt ks _ _ i _ Hp. inversion Hp.
  - intros ks _ i _ Hp. inversion Hp.
  - intros x. destruct x; try exact Logic.I; intros i Hx Hp; inversion Hp; subst; constructor; try done.
    inversion Hx as [| | | |? n Hn Ht| | | | | | | |]; subst. apply parsed_writable. destruct (inv_node h HI i n Hn) as (_ & _ & _ & _ & Hnm). unfold name_ok in Hnm. rewrite Ht in Hnm. apply Hnm.
Qed.
