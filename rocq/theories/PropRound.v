(** * Property C74: printing a document and reading it again *)
From Coq Require Import Lia.
From Verif Require Import SpecRound SpecTree ProofText ProofAttr ProofName ProofSteps PropName PropText ProofShow ProofRead ProofInv ProofOps ProofParse ProofReader ProofTree PropFactory PropTree PropShow PropParse.

#[local] Opaque attr_value.

(** ** The reader's trimming *)
Lemma edge_whiteb_spec c : edge_whiteb c = true <-> edge_white c.
Proof. unfold edge_whiteb, edge_white. rewrite !orb_true_iff, !N.eqb_eq. tauto. Qed.
Lemma front_white a t : Forall edge_white a -> (forall c u, t = c :: u -> ~ edge_white c) -> trimmed_front (a ++ t) = t.
Proof.
  intros Ha Ht. unfold trimmed_front. rewrite while_app; [done| |].
  - eapply Forall_impl; [exact Ha|]. intros c. by rewrite edge_whiteb_spec.
  - destruct t as [|c u]; [done|]. destruct (edge_whiteb c) eqn:He; [|done]. apply edge_whiteb_spec in He. by destruct (Ht c u eq_refl).
Qed.
Lemma trimmed_text_eq s t : edges_gone s t -> trimmed_text s = t.
Proof.
  intros (a & b & -> & Ha & Hb & H1 & H2). unfold trimmed_text. destruct t as [|c u].
  - cbn [app]. rewrite <- (app_nil_r (a ++ b)). rewrite front_white; [done| |done]. by apply Forall_app.
  - rewrite front_white; [|done|intros x y [= -> _]; by apply (H1 x u)]. rewrite rev_app_distr, front_white.
    + apply rev_involutive.
    + apply Forall_forall. intros x Hx. rewrite Forall_forall in Hb. apply Hb. apply elem_of_list_In in Hx. apply elem_of_list_In. by apply in_rev.
    + intros x y Hxy. apply (H2 x (rev y)). rewrite <- (rev_involutive (c :: u)), Hxy. done.
Qed.

(** ** Names *)
Inductive named : item -> Prop :=
| nd_element n l kids : (exists k, plain_name n k) -> Forall (fun p => exists k, plain_name p.1 k) l -> Forall named kids -> named (Element n l kids)
| nd_text v : named (Text v)
| nd_comment v : named (Comment v)
| nd_cdata v : (forall a b, v <> a ++ lit "]]>" ++ b) -> named (CData v)
| nd_pi s t d k : pi_text s t d -> plain_name t k -> ~ xml_target t -> ~ In 62%N s -> named (Pi s).
Lemma named_text v l : Forall named l -> Forall named (add_text v l).
Proof. intros H. destruct v as [|c v]; [done|]. destruct H as [|[] l Hx Hl]; cbn; (constructor; [apply nd_text|]); try done; by constructor. Qed.
Lemma parsed_plain k : parsed_name k -> exists m, plain_name (name_to_string k) m.
Proof.
  intros [s Hs]. exists (mkName None (nm_prefix k) (nm_local k)). assert (Hp : name_to_string k = s) by (pose proof (C09_print_parse _ _ Hs) as H; by destruct k).
  rewrite Hp. by apply C08_accepts.
Qed.
Lemma pi_text_total s : exists t d, pi_text s t d.
Proof. destruct (pi_parts s) as [t d] eqn:H. exists t, d. by apply pi_parts_text. Qed.
Lemma pi_text_fun s t d t' d' : pi_text s t d -> pi_text s t' d' -> t = t' /\ d = d'.
Proof. intros H%pi_parts_ok H'%pi_parts_ok. rewrite H in H'. by injection H'. Qed.
Lemma pi_body_text t d : ~ In 32%N t -> exists d', pi_text (pi_body t d) t d'.
Proof.
  intros Ht. destruct d as [v|]; [|exists None; by constructor]. cbn. pose proof (trim_strips v) as Hv. destruct (trim v) as [|c u]; [exists None; by apply pt_blank|].
  exists (Some (c :: u)). by apply pt_data.
Qed.
Lemma pi_text_parts s t d : pi_text s t d -> forall c, In c (pi_body t d) -> In c s.
Proof.
  intros H c. destruct H as [t Ht|t v Ht Hv|t v d Ht Hv Hd]; cbn [pi_body]; [done|intros Hc; apply in_app_iff; by left|].
  rewrite !in_app_iff. cbn [In lit]. destruct Hv as (a & b & -> & _). rewrite !in_app_iff. intros [Hc|[Hc|Hc]]; [by left| |by auto]. right. left. destruct Hc as [Hc|[]]. exact Hc.
Qed.
Lemma writable_no_space t : writable t -> ~ In 32%N t /\ ~ In 62%N t.
Proof. intros [H _]. rewrite Forall_forall in H. split; intros Hin%elem_of_list_In; by destruct (H _ Hin) as (? & ? & _). Qed.
Lemma spaced_cdata v : (forall a b, v <> a ++ lit "]]>" ++ b) -> forall a b, lit " " ++ v ++ lit " " <> a ++ lit "]]>" ++ b.
Proof.
  intros H a b Heq. destruct a as [|c a]; [done|]. change (lit " " ++ v ++ lit " ") with (32%N :: v ++ [32%N]) in Heq. cbn [app] in Heq. injection Heq as _ Heq.
  destruct b as [|x b _] using rev_ind.
  - assert (Heq' : v ++ [32%N] = (a ++ [93; 93]%N) ++ [62%N]) by (rewrite <- app_assoc; exact Heq). by apply app_inj_tail in Heq' as [_ Heq'].
  - assert (Heq' : v ++ [32%N] = (a ++ lit "]]>" ++ b) ++ [x]) by (rewrite <- app_assoc; exact Heq). apply app_inj_tail in Heq' as [Heq' _]. by apply (H a b).
Qed.
Lemma stands_names E h : Inv h -> forall x i, stands_for E h i x -> plain x -> forall l, Forall named l -> Forall named (add_items x l).
Proof.
  intros HI. apply (xml_ind' (fun x => forall i, stands_for E h i x -> plain x -> forall l, Forall named l -> Forall named (add_items x l))).
  - intros nm a ks IH i Hx Hp l Hl. inversion Hx as [? n attrs avs kids Hn Ht Ha Hav Hk| | | | | | | | | | | |]; subst. inversion Hp as [? ? ? Hpk| | | |]; subst.
    cbn [add_items]. constructor; [|done]. constructor.
    + apply parsed_plain. destruct (inv_node h HI i n Hn) as (_ & _ & _ & _ & Hnm). unfold name_ok in Hnm. by rewrite Ht in Hnm.
    + clear -HI Hav. induction Hav as [|a p l avs (na & o & Hna & Hta & Hnm & _) _ IHl]; constructor; [|done]. rewrite <- Hnm. apply parsed_plain.
      destruct (inv_node h HI a na Hna) as (_ & _ & _ & _ & Hnm'). unfold name_ok in Hnm'. by rewrite Hta in Hnm'.
    + clear -IH Hk Hpk. revert Hpk IH. induction Hk as [|c k cs ks Hck _ IHk]; intros Hpk IH; cbn; [constructor|]. inversion Hpk; subst; inversion IH; subst; eauto.
  - intros d dt ks _ _ i _ Hp. inversion Hp.
  - intros ks _ i _ Hp. inversion Hp.
  - intros x. destruct x; try exact Logic.I; intros i Hx Hp l Hl; inversion Hp as [| | |? Hcd|? ? Hpd]; subst; cbn [add_items]; [by apply named_text| | |].
    + destruct v as [v|]; [|done]. constructor; [|done]. constructor. apply spaced_cdata. intros a b. by apply Hcd.
    + destruct v; [by repeat constructor|done].
    + constructor; [|done]. inversion Hx as [| | | |? n Hn Ht| | | | | | | |]; subst. destruct (inv_node h HI i n Hn) as (_ & _ & _ & _ & Hnm). unfold name_ok in Hnm. rewrite Ht in Hnm.
      destruct Hnm as [Hnm Hxt]. destruct (writable_no_space _ (parsed_writable _ Hnm)) as [H32 H62]. destruct (parsed_plain _ Hnm) as [m Hm].
      destruct (pi_body_text (name_to_string (n_name n)) (n_value n) H32) as [d' Hd']. eapply nd_pi; [exact Hd'|exact Hm|done|].
      destruct (n_value n) as [v|]; cbn [pi_body]; [|done]. rewrite !in_app_iff. intros [Hc|[[Hc|[]]|Hc]]; [done|done|]. by apply (Hpd v).
Qed.

(** ** Lists of items up to the order of attributes *)
Lemma item_ind' (P : item -> Prop) : (forall n l kids, Forall P kids -> P (Element n l kids)) -> (forall v, P (Text v)) -> (forall v, P (Comment v)) -> (forall v, P (CData v)) -> (forall s, P (Pi s)) -> forall x, P x.
Proof.
  intros HE HT HC HD HP. fix IH 1. intros [n l kids|v|v|v|v]; [|apply HT|apply HC|apply HD|apply HP]. apply HE. induction kids as [|k kids IHk]; constructor; [apply IH|apply IHk].
Qed.
Lemma same_named x y : same_item x y -> named y -> named x.
Proof.
  revert y. induction x as [n l kids IH|v|v|v|v] using item_ind'; intros y Hs Hy; inversion Hs; subst; [|done..]. inversion Hy as [? ? ? G1 G2 G3| | | |]; subst. constructor; [done| |].
  - match goal with H : l ≡ₚ _ |- _ => by rewrite H end.
  - match goal with H : Forall2 _ kids _ |- _ => rename H into Hk end. clear -IH Hk G3. induction Hk; [constructor|]. inversion IH; subst. inversion G3; subst. constructor; [eauto|auto].
Qed.
Lemma same_differ x y : same_item x y -> attrs_differ y -> attrs_differ x.
Proof.
  revert y. induction x as [n l kids IH|v|v|v|v] using item_ind'; intros y Hs Hy; inversion Hs; subst; [|done..]. inversion Hy as [? ? ? G1 G3| | | |]; subst. constructor.
  - match goal with H : l ≡ₚ _ |- _ => by rewrite H end.
  - match goal with H : Forall2 _ kids _ |- _ => rename H into Hk end. clear -IH Hk G3. induction Hk; [constructor|]. inversion IH; subst. inversion G3; subst. constructor; [eauto|auto].
Qed.
Lemma Forall2_back {A B} (R : A -> B -> Prop) (P : A -> Prop) (Q : B -> Prop) l l' : (forall x y, R x y -> Q y -> P x) -> Forall2 R l l' -> Forall Q l' -> Forall P l.
Proof. intros H. induction 1; intros HQ; [constructor|]. inversion HQ; subst. constructor; eauto. Qed.
Lemma attr_ids_perm l l' : l ≡ₚ l' -> attr_ids l ≡ₚ attr_ids l'.
Proof.
  intros H. unfold attr_ids. apply Permutation_map. induction H as [|x l l' H IH|x y l|l l1 l2 _ IH1 _ IH2]; cbn; [done| | |by etrans].
  - destruct (is_xml_id x); [by constructor|done].
  - destruct (is_xml_id x), (is_xml_id y); try done. apply perm_swap.
Qed.
Lemma same_ids x y : same_item x y -> ids x ≡ₚ ids y.
Proof.
  revert y. induction x as [n l kids IH|v|v|v|v] using item_ind'; intros y Hs; inversion Hs; subst; [|done..]. cbn. apply Permutation_app; [by apply attr_ids_perm|].
  match goal with H : Forall2 _ kids _ |- _ => rename H into Hk end. clear -IH Hk. induction Hk; cbn; [done|]. inversion IH; subst. apply Permutation_app; auto.
Qed.
Lemma same_ids_all l l' : Forall2 same_item l l' -> flat_map ids l ≡ₚ flat_map ids l'.
Proof. induction 1; cbn; [done|]. apply Permutation_app; [by apply same_ids|done]. Qed.
Lemma perm_Forall2 {A B} (R : A -> B -> Prop) l l2 : l ≡ₚ l2 -> forall l2', Forall2 R l2 l2' -> exists l', Forall2 R l l' /\ l' ≡ₚ l2'.
Proof.
  induction 1 as [|x l l' H IH|x y l|l l1 l2 _ IH1 _ IH2]; intros m Hm.
  - inversion Hm; subst. exists []. by split.
  - inversion Hm as [|? z ? m' Hz Hm']; subst. destruct (IH _ Hm') as (m1 & H1 & H2). exists (z :: m1). split; [by constructor|by constructor].
  - inversion Hm as [|? z ? m' Hz Hm']; subst. inversion Hm' as [|? z' ? m'' Hz' Hm'']; subst. exists (z' :: z :: m''). split; [by repeat constructor|apply perm_swap].
  - destruct (IH2 _ Hm) as (m1 & H1 & H2). destruct (IH1 _ H1) as (m0 & H0 & H3). exists m0. split; [done|by etrans].
Qed.
Lemma reread_same E c c' : reread E c c' -> forall its, Forall2 same_item its c -> exists its', reread E its its' /\ Forall2 same_item its' c'.
Proof.
  induction 1 as [|n l l' kids kids' r r' Hl Hk IHk Hr IHr|v r r' Hv Hr IH|v t r r' Hv Ht Hr IH|v r r' Hr IH|v r r' Hr IH|v t dd r r' Hna Hpt Hr IH]; intros its Hs.
  - inversion Hs; subst. exists []. split; constructor.
  - inversion Hs as [|x ? its0 ? Hx Hs']; subst. inversion Hx as [? al ? ks ? Hp Hks| | | |]; subst.
    destruct (IHk _ Hks) as (ks' & K1 & K2). destruct (IHr _ Hs') as (r1 & R1 & R2). destruct (perm_Forall2 _ _ _ Hp _ Hl) as (al' & A1 & A2).
    exists (Element n al' ks' :: r1). split; [by constructor|]. constructor; [by constructor|done].
  - inversion Hs as [|x ? its0 ? Hx Hs']; subst. inversion Hx; subst. destruct (IH _ Hs') as (r1 & R1 & R2). exists r1. split; [by apply rr_blank|done].
  - inversion Hs as [|x ? its0 ? Hx Hs']; subst. inversion Hx; subst. destruct (IH _ Hs') as (r1 & R1 & R2). exists (Text t :: r1). split; [by apply rr_text|]. by repeat constructor.
  - inversion Hs as [|x ? its0 ? Hx Hs']; subst. inversion Hx; subst. destruct (IH _ Hs') as (r1 & R1 & R2). exists (Comment v :: r1). split; [by constructor|]. by repeat constructor.
  - inversion Hs as [|x ? its0 ? Hx Hs']; subst. inversion Hx; subst. destruct (IH _ Hs') as (r1 & R1 & R2). exists (CData (lit " " ++ v ++ lit " ") :: r1). split; [by apply rr_cdata|]. constructor; [constructor|done].
  - inversion Hs as [|x ? its0 ? Hx Hs']; subst. inversion Hx; subst. destruct (IH _ Hs') as (r1 & R1 & R2). exists (Pi (pi_body t dd) :: r1). split; [by apply rr_pi|]. constructor; [constructor|done].
Qed.

(** ** No two texts side by side *)
Definition no_text (l : list item) : Prop := match l with Text _ :: _ => False | _ => True end.
Inductive apart : list item -> Prop :=
| ap_nil : apart []
| ap_element n l kids r : apart kids -> apart r -> apart (Element n l kids :: r)
| ap_text v r : no_text r -> apart r -> apart (Text v :: r)
| ap_comment v r : apart r -> apart (Comment v :: r)
| ap_cdata v r : apart r -> apart (CData v :: r)
| ap_pi v r : apart r -> apart (Pi v :: r).
Lemma apart_text v l : apart l -> apart (add_text v l).
Proof. intros H. destruct v as [|c v]; [done|]. destruct H; cbn; by repeat constructor. Qed.
Lemma apart_items x : forall l, apart l -> apart (add_items x l).
Proof.
  apply (xml_ind' (fun x => forall l, apart l -> apart (add_items x l))); clear x.
  - intros nm a ks IH l Hl. cbn. constructor; [|done]. induction IH as [|k ks Hk _ IHk]; cbn; [constructor|]. by apply Hk.
  - done.
  - done.
  - intros x. destruct x; try exact Logic.I; intros l Hl; cbn; try done; [by apply apart_text| | |]; [destruct v; [by constructor|done]..|by constructor].
Qed.
Lemma apart_content xs : apart (content xs).
Proof. induction xs as [|x xs IH]; [constructor|]. by apply apart_items. Qed.
Lemma apart_same c : apart c -> forall its, Forall2 same_item its c -> apart its.
Proof.
  induction 1 as [|n l kids r Hk IHk Hr IHr|v r Hn Hr IH|v r Hr IH|v r Hr IH|v r Hr IH]; intros its Hs.
  - inversion Hs; constructor.
  - inversion Hs as [|x ? its0 ? Hx Hs']; subst. inversion Hx; subst. constructor; auto.
  - inversion Hs as [|x ? its0 ? Hx Hs']; subst. inversion Hx; subst. constructor; [|auto]. destruct Hs' as [|x y l l' Hxy _]; [done|]. by destruct Hxy.
  - inversion Hs as [|x ? its0 ? Hx Hs']; subst. inversion Hx; subst. constructor; auto.
  - inversion Hs as [|x ? its0 ? Hx Hs']; subst. inversion Hx; subst. constructor; auto.
  - inversion Hs as [|x ? its0 ? Hx Hs']; subst. inversion Hx; subst. constructor; auto.
Qed.
Lemma reread_no_text E r r' : reread E r r' -> no_text r -> no_text r'.
Proof. by destruct 1. Qed.

(** ** What is delivered *)
Lemma delivered_xml E c c' : reread E c c' -> apart c -> Forall named c -> exists xs, Forall2 (as_xml E) (flat_map delivered c) xs /\ content xs = c' /\ Forall plain xs.
Proof.
  induction 1 as [|n l l' kids kids' r r' Hl Hk IHk Hr IHr|v r r' Hv Hr IH|v t r r' Hv Ht Hr IH|v r r' Hr IH|v r r' Hr IH|v t dd r r' Hna Hpt Hr IH]; intros Ha Hnm; inversion Ha; subst; try (inversion Hnm as [|? ? Hnx Hnr]; subst).
  - exists []. by repeat constructor.
  - destruct IHk as (ks & K1 & <- & K3); [done|by inversion Hnx|]. destruct IHr as (xs & X1 & <- & X3); [done|done|]. exists (XmlElement n l' ks :: xs). cbn. split; [|split; [done|by repeat constructor]].
    constructor; [by constructor|done].
  - destruct IH as (xs & X1 & <- & X3); [done|done|]. exists xs. cbn. by rewrite (trimmed_text_eq _ _ Hv).
  - destruct IH as (xs & X1 & X2 & X3); [done|done|]. exists (XmlText (Some t) :: xs). cbn. rewrite (trimmed_text_eq _ _ Hv). destruct t as [|c t]; [done|].
    split; [repeat constructor; done|]. split; [|by repeat constructor]. unfold content in X2. rewrite X2. cbn.
    assert (Hnt : no_text r') by (by eapply reread_no_text). destruct r' as [|[] r']; try done.
  - destruct IH as (xs & X1 & <- & X3); [done|done|]. exists (XmlComment (Some v) :: xs). cbn. split; [|split; [done|by repeat constructor]]. constructor; [constructor|done].
  - destruct IH as (xs & X1 & <- & X3); [done|done|]. exists (XmlCData (Some v) :: xs). cbn [flat_map delivered app]. split; [constructor; [constructor|done]|]. split; [done|]. constructor; [|done]. constructor.
    intros s a b [= <-]. inversion Hnx as [| | |? Hcd|]; subst. apply Hcd.
  - destruct IH as (xs & X1 & <- & X3); [done|done|]. exists (XmlPI t dd :: xs). cbn [flat_map delivered app]. split; [constructor; [by constructor|done]|]. split; [done|]. constructor; [|done]. constructor.
    intros s -> Hin. inversion Hnx as [| | | |? ? ? ? _ _ _ H62]; subst. apply H62. apply (pi_text_parts _ _ _ Hpt). cbn [pi_body]. rewrite !in_app_iff. right. by right.
Qed.
Lemma delivered_readable x : named x -> attrs_differ x -> Forall readable (delivered x).
Proof.
  induction x as [n l kids IH|v|v|v|v] using item_ind'; intros Hn Hd; cbn [delivered].
  - inversion Hn as [? ? ? [k Hk] Hl Hks| | | |]; subst. inversion Hd as [? ? ? Hnd Hds| | | |]; subst. constructor; [|constructor]. eapply rd_element; [exact Hk|by split|].
    clear -IH Hks Hds. induction kids as [|y kids IHk]; cbn; [constructor|]. inversion IH; subst. inversion Hks; subst. inversion Hds; subst. apply Forall_app. split; auto.
  - destruct (trimmed_text v); repeat constructor.
  - repeat constructor.
  - repeat constructor.
  - constructor; [|constructor]. inversion Hn; subst. by eapply rd_pi.
Qed.
Lemma raw_ids_delivered x : raw_ids_all (delivered x) = ids x.
Proof.
  induction x as [n l kids IH|v|v|v|v] using item_ind'; cbn [delivered ids].
  - unfold raw_ids_all. cbn. rewrite app_nil_r. f_equal. induction kids as [|y kids IHk]; [done|]. inversion IH as [|? ? Hy Hk]; subst. cbn. rewrite map_app, concat_app, IHk by done. f_equal. exact Hy.
  - by destruct (trimmed_text v).
  - done.
  - done.
  - done.
Qed.
Lemma raw_ids_app a b : raw_ids_all (a ++ b) = raw_ids_all a ++ raw_ids_all b.
Proof. unfold raw_ids_all. by rewrite map_app, concat_app. Qed.
Lemma raw_ids_all_delivered l : raw_ids_all (flat_map delivered l) = flat_map ids l.
Proof. induction l as [|x l IH]; [done|]. cbn [flat_map]. by rewrite raw_ids_app, raw_ids_delivered, IH. Qed.
Lemma attr_ids_denotes E l l' : Forall2 (fun p q : str * str => q.1 = p.1 /\ denotes E p.2 q.2) l l' -> Forall2 (denotes E) (attr_ids l) (attr_ids l').
Proof.
  induction 1 as [|p q l l' [Hpq Hd] _ IH]; [constructor|]. unfold attr_ids in *. cbn.
  assert (Hi : is_xml_id q = is_xml_id p) by (unfold is_xml_id; by rewrite Hpq). rewrite Hi. destruct (is_xml_id p); cbn; [by constructor|done].
Qed.
Lemma reread_ids E c c' : reread E c c' -> Forall2 (denotes E) (flat_map ids c) (flat_map ids c').
Proof.
  induction 1 as [|n l l' kids kids' r r' Hl Hk IHk Hr IHr|v r r' Hv Hr IH|v t r r' Hv Ht Hr IH|v r r' Hr IH|v r r' Hr IH|v t dd r r' Hna Hpt Hr IH]; cbn; try done. apply Forall2_app; [|done]. apply Forall2_app; [by apply attr_ids_denotes|done].
Qed.
Lemma shown_ids E l l' : Forall2 (denotes E) l l' -> Forall2 (shown E) l (map escape l').
Proof. induction 1 as [|v q l l' (a & b & H1 & H2 & H3) _ IH]; cbn; constructor; [|done]. exists a, b, q. split_and!; try done. apply escape_escaped. Qed.

(** ** Instructions without [&] are delivered as they are *)
Lemma has_char_spec c s : has_char c s = true <-> In c s.
Proof. unfold has_char. rewrite existsb_exists. split; [intros (x & Hx & He); apply N.eqb_eq in He; by subst|]. intros H. exists c. by rewrite N.eqb_refl. Qed.
Lemma unescaped_app a b : unescaped (a ++ b) = match unescaped a, unescaped b with Some x, Some y => Some (x ++ y) | _, _ => None end.
Proof.
  induction a as [|e a IH]; cbn [app unescaped]; [by destruct (unescaped b)|].
  destruct e as [| | | | |[s|]| | | |]; cbn [option_map]; rewrite IH; destruct (unescaped a); cbn; try done; destruct (unescaped b); cbn; try done; destruct (negb _); try done; by destruct (negb _).
Qed.
Inductive no_amp : item -> Prop :=
| na_element n l kids : Forall no_amp kids -> no_amp (Element n l kids)
| na_text v : no_amp (Text v)
| na_comment v : no_amp (Comment v)
| na_cdata v : no_amp (CData v)
| na_pi s : ~ In 38%N s -> no_amp (Pi s).
Lemma reread_no_amp E c c' : reread E c c' -> Forall no_amp c.
Proof. induction 1; constructor; try done; by constructor. Qed.
Lemma unescaped_all l : Forall (fun x => unescaped (events_of_all (delivered x)) = Some (events_of_all (delivered x))) l ->
  unescaped (events_of_all (flat_map delivered l)) = Some (events_of_all (flat_map delivered l)).
Proof. induction 1 as [|x l Hx _ IH]; [done|]. cbn [flat_map]. unfold events_of_all in *. by rewrite map_app, concat_app, unescaped_app, Hx, IH. Qed.
Lemma unescaped_delivered x : no_amp x -> unescaped (events_of_all (delivered x)) = Some (events_of_all (delivered x)).
Proof.
  induction x as [n l kids IH|v|v|v|v] using item_ind'; intros H; inversion H as [? ? ? Hk| | | |? Hs]; subst.
  - unfold events_of_all. cbn [delivered map concat events_of]. rewrite app_nil_r. cbn [unescaped]. rewrite unescaped_app. fold (events_of_all (flat_map delivered kids)). rewrite unescaped_all; [done|].
    clear -IH Hk. induction IH; [constructor|]. inversion Hk; subst. constructor; auto.
  - cbn. by destruct (trimmed_text v).
  - done.
  - done.
  - cbn. assert (has_char 38 v = false) as ->; [|done]. apply not_true_is_false. by rewrite has_char_spec.
Qed.
Lemma unescaped_same E c c' : reread E c c' -> unescaped (events_of_all (flat_map delivered c)) = Some (events_of_all (flat_map delivered c)).
Proof. intros H%reread_no_amp. apply unescaped_all. eapply Forall_impl; [exact H|]. apply unescaped_delivered. Qed.

(** ** The top of the document *)
Definition elementb (x : item) : bool := match x with Element _ _ _ => true | _ => false end.
Definition top_xml (x : xml) : Prop := match x with XmlElement _ _ _ | XmlComment _ | XmlPI _ _ => True | _ => False end.
Definition xml_elementb (x : xml) : bool := match x with XmlElement _ _ _ => true | _ => false end.
Lemma top_content xs : Forall top_xml xs -> Forall (fun x => match x with Text _ | CData _ => False | _ => True end) (content xs) /\
  length (List.filter elementb (content xs)) = length (List.filter xml_elementb xs).
Proof. induction 1 as [|x xs Hx _ [IH1 IH2]]; [split; [constructor|done]|]. unfold content in *. destruct x; try done; cbn; [|destruct v; cbn|]; (split; [try done; by constructor|]); cbn; by rewrite ?IH2. Qed.
Lemma top_same its c : Forall2 same_item its c -> Forall (fun x => match x with Text _ | CData _ => False | _ => True end) c ->
  Forall top_item (flat_map delivered its) /\ length (List.filter is_element (flat_map delivered its)) = length (List.filter elementb c).
Proof.
  induction 1 as [|x y its c Hxy _ IH]; intros Hc; [split; [constructor|done]|]. inversion Hc as [|? ? Hy Hc']; subst. destruct (IH Hc') as [I1 I2].
  destruct Hxy; cbn; try done; (split; [constructor; done|]); by rewrite ?I2.
Qed.
Lemma filter_one {A} (p : A -> bool) l : (forall j k a b, l !! j = Some a -> l !! k = Some b -> p a = true -> p b = true -> j = k) -> (length (List.filter p l) <= 1)%nat.
Proof.
  induction l as [|x l IH]; intros H; cbn; [lia|]. destruct (p x) eqn:Hx.
  - cbn. assert (List.filter p l = []) as ->; [|cbn; lia]. destruct (List.filter p l) as [|y r] eqn:Hf; [done|]. exfalso.
    assert (Hy : In y (List.filter p l)) by (rewrite Hf; by left). apply filter_In in Hy as [Hin Hy]. apply elem_of_list_In, elem_of_list_lookup in Hin as (j & Hj).
    specialize (H 0%nat (S j) x y eq_refl Hj Hx Hy). lia.
  - apply IH. intros j k a b Ha Hb Hpa Hpb. specialize (H (S j) (S k) a b Ha Hb Hpa Hpb). lia.
Qed.
Lemma doc_top E h d D xs : Inv h -> stands_for E h d (XmlDocument D None xs) -> Forall plain xs -> Forall top_xml xs /\ (length (List.filter xml_elementb xs) <= 1)%nat.
Proof.
  intros HI Hs Hp. inversion Hs as [| | | | | |? n ? ? Hn Ht _ _ Hk| | | | | |]; subst. destruct (inv_node h HI d n Hn) as (_ & _ & _ & [Hc1 Hc2] & _). split.
  - apply Forall_forall. intros x Hx. apply elem_of_list_lookup in Hx as (j & Hj). destruct (Forall2_lookup_r _ _ _ _ _ Hk Hj) as (c & Hc & Hcx).
    rewrite Forall_forall in Hp. specialize (Hp x (elem_of_list_lookup_2 _ _ _ Hj)). apply elem_of_list_lookup_2, elem_of_list_In in Hc. destruct (Hc1 c Hc) as (_ & s & (m & Hm & <-)%info_inv & Hl & _). cbn in Hl. rewrite Ht in Hl.
    destruct Hp as [| v | |v Hv|]; try done.
    + inversion Hcx as [|? m' Hm' Ht'| | | | | | | | | | |]; subst. rewrite Hm in Hm'. injection Hm' as <-. rewrite Ht' in Hl. done.
    + inversion Hcx as [| |? m' Hm' Ht'| | | | | | | | | |]; subst. rewrite Hm in Hm'. injection Hm' as <-. rewrite Ht' in Hl. done.
  - apply filter_one. intros j k a b Ha Hb Hpa Hpb. destruct (Forall2_lookup_r _ _ _ _ _ Hk Ha) as (ca & Hca & Hsa). destruct (Forall2_lookup_r _ _ _ _ _ Hk Hb) as (cb & Hcb & Hsb).
    destruct a; try done. destruct b; try done.
    inversion Hsa as [? na ? ? ? Hna Hta| | | | | | | | | | | |]; subst. inversion Hsb as [? nb ? ? ? Hnb Htb| | | | | | | | | | | |]; subst.
    eapply (Hc2 Ht j k ca cb (static na) (static nb)); try done; by apply info_some.
Qed.

(** ** The text of the whole document *)
Lemma content_read xs ts : Forall well_named xs -> Forall2 written xs ts -> exists its, read_back (concat ts) = Some its /\ Forall2 same_item its (content xs).
Proof.
  intros Hn Hw. unfold read_back. destruct (read_kids (S (length (concat ts))) xs ts [] [] []) as (its & H1 & H2); try done.
  - constructor.
  - by left.
  - cbn [app]. rewrite app_nil_r. lia.
  - cbn [app] in H1. rewrite app_nil_r in H1. rewrite H1. eauto.
Qed.
Lemma not_xml t c r : ~ In 32%N t -> ~ xml_target t -> c = 32%N \/ c = 63%N -> drop_prefix (lit "xml ") (t ++ c :: r) = None.
Proof.
  intros H32 Hx Hc. change (lit "xml ") with [120;109;108;32]%N.
  destruct t as [|c1 t]; cbn [app]; rewrite drop_prefix_cons; [destruct Hc as [->| ->]; done|]. destruct (N.eqb_spec c1 120) as [->|_]; [|done].
  destruct t as [|c2 t]; cbn [app]; rewrite drop_prefix_cons; [destruct Hc as [->| ->]; done|]. destruct (N.eqb_spec c2 109) as [->|_]; [|done].
  destruct t as [|c3 t]; cbn [app]; rewrite drop_prefix_cons; [destruct Hc as [->| ->]; done|]. destruct (N.eqb_spec c3 108) as [->|_]; [|done].
  destruct t as [|c4 t]; cbn [app].
  - exfalso. apply Hx. exists 120%N, 109%N, 108%N. split_and!; try done; by left.
  - rewrite drop_prefix_cons. destruct (N.eqb_spec c4 32) as [->|_]; [|done]. exfalso. apply H32. do 3 right. by left.
Qed.
Lemma no_decl xs ts : Forall well_named xs -> Forall2 written xs ts -> Forall top_xml xs -> (forall n l k, In (XmlElement n l k) xs -> exists m, plain_name n m) ->
  (forall t d, In (XmlPI t d) xs -> ~ xml_target t) -> drop_prefix (lit "<?xml ") (concat ts) = None.
Proof.
  intros Hn Hw Ht Hp Hq. change (lit "<?xml ") with [60;63;120;109;108;32]%N. induction Hw as [|x t xs ts Hx Hw IH]; [done|]. inversion Hn as [|? ? Hnx Hn']; subst. inversion Ht as [|? ? Htx Ht']; subst.
  destruct x as [n l k| | |[v|]|t0 d0| | | | | | |]; try done.
  - inversion Hx; subst. cbn [concat]. rewrite <- !app_assoc. change (lit "<") with [60%N]. cbn [app]. rewrite drop_prefix_cons, N.eqb_refl.
    destruct (Hp n l k) as (m & Hm); [by left|]. assert (exists c u, n = c :: u /\ c <> 63%N) as (c & u & -> & Hc).
    { assert (Hg : forall p, good_part p -> exists c u, p = c :: u /\ c <> 63%N).
      { intros p (c & u & -> & Hc & _). exists c, u. split; [done|]. intros ->. revert Hc. unfold name_start_char, rng. intros Hc. revert Hc. clear. lia. }
      destruct Hm as [(_ & Hgn & _)|(p & q & (-> & _) & Hgp & _)]; [by apply Hg|]. destruct (Hg p Hgp) as (c & u & -> & Hc). by exists c, (u ++ 58%N :: q). }
    cbn [app]. rewrite drop_prefix_cons. apply N.eqb_neq in Hc. by rewrite Hc.
  - inversion Hx; subst. cbn [concat]. done.
  - inversion Hx; subst. cbn [concat app]. apply IH; [done|done| |]; [intros n l k Hin; eapply Hp; by right|intros t d Hin; eapply Hq; by right].
  - inversion Hnx as [| | | |? ? Hwt _]; subst. destruct (writable_no_space _ Hwt) as [H32 _]. assert (Hxt : ~ xml_target t0) by (eapply Hq; by left).
    assert (Hs : exists c r, concat (t :: ts) = [60;63]%N ++ t0 ++ c :: r /\ (c = 32%N \/ c = 63%N)).
    { inversion Hx; subst; cbn [concat]; repeat rewrite <- app_assoc; eexists _, _; (split; [reflexivity|]); [by left|by right]. }
    destruct Hs as (c & r & -> & Hc). cbn [app]. rewrite !drop_prefix_cons, !N.eqb_refl. by apply not_xml.
Qed.
Definition decl_attrs (D : xml_decl) : list (str * str) :=
  (lit "version", match xd_version D with V10 => lit "1.0" | V11 => lit "1.1" end) ::
  match xd_encoding D with Some e => [(lit "encoding", e)] | None => [] end ++
  match xd_standalone D with Some b => [(lit "standalone", if b then lit "yes" else lit "no")] | None => [] end.
Definition attr_text (p : str * str) : str := p.1 ++ lit "=" ++ in_quotes p.2.
Lemma decl_text D : xml_decl_to_string D = lit "<?xml" ++ concat (map (app (lit " ")) (map attr_text (decl_attrs D))) ++ lit "?>".
Proof.
  destruct D as [[] [e|] [[]|]]; unfold xml_decl_to_string, decl_attrs, attr_text, in_quotes; cbn [xd_version xd_encoding xd_standalone map concat app fst snd version_to_string]; try done;
    repeat rewrite <- ?app_assoc; cbn; by rewrite <- ?app_assoc.
Qed.
Lemma encoding_chars e : encoding_name e -> Forall (fun c => ~ special c /\ c <> 63%N) e.
Proof.
  intros (c & t & -> & Hc & Ht). constructor; [unfold special, ascii_letter in *; lia|]. eapply Forall_impl; [exact Ht|]. intros x. unfold special, ascii_letter, ascii_digit. lia.
Qed.
Lemma plain_escaped v : Forall (fun c => ~ special c) v -> escaped v v.
Proof. induction 1; by constructor. Qed.
Lemma decl_read D rest : decl_valid (Some D) -> exists ev, read_decl (xml_decl_to_string D ++ rest) = Some ([ev], rest) /\ declares ev D.
Proof.
  intros HD. set (l := decl_attrs D). set (body := concat (map (app (lit " ")) (map attr_text l))).
  assert (Hl : Forall (fun p => Forall (fun c => ~ special c /\ c <> 63%N) p.2 /\ (p.1 = lit "version" \/ p.1 = lit "encoding" \/ p.1 = lit "standalone")) l).
  { unfold l, decl_attrs. destruct D as [V e b]. cbn in HD; cbn [xd_version xd_encoding xd_standalone]. constructor; [split; [|by left]; destruct V; cbn [snd]; letters; each ltac:(unfold special; lia)|].
    apply Forall_app. split; [destruct e as [e|]; [constructor; [split; [by apply encoding_chars|right; by left]|constructor]|constructor]|].
    destruct b as [[]|]; [constructor; [split; [|right; by right]|constructor]..|constructor]; cbn [snd]; letters; each ltac:(unfold special; lia). }
  assert (Hbody : ~ In 63%N body).
  { unfold body. rewrite map_map. clearbody l. clear body. cbn beta. induction Hl as [|[k0 v0] l [Hp Hk] _ IH]; [by intros []|]. cbn [map concat fst snd] in *. rewrite in_app_iff. intros [Hin|Hin]; [|by apply IH].
    unfold attr_text, in_quotes in Hin. cbn [fst snd] in Hin. rewrite !in_app_iff in Hin. destruct Hin as [Hin|[Hin|[Hin|[Hin|[Hin|Hin]]]]]; try (vm_compute in Hin; intuition discriminate).
    - destruct Hk as [Hk|[Hk|Hk]]; rewrite Hk in Hin; vm_compute in Hin; intuition discriminate.
    - apply elem_of_list_In in Hin. rewrite Forall_forall in Hp. by destruct (Hp _ Hin). }
  assert (Hread : read_attrs (S (S (length body))) (body ++ lit ">") = Some (l, [])).
  { rewrite <- (app_nil_r (lit ">")). unfold body. apply read_attrs_ok.
    - clearbody l. clear -Hl. induction Hl as [|p l [Hp _] _ IH]; cbn; constructor; [|done]. exists p.2. split; [|done]. apply plain_escaped. eapply Forall_impl; [exact Hp|]. by intros c [? _].
    - clearbody l. clear -Hl. eapply Forall_impl; [exact Hl|]. intros [k0 v0] [_ Hk]. cbn [fst snd] in *. destruct Hk as [Hk|[Hk|Hk]]; rewrite Hk; letters; (split; [each ltac:(lia)|lia]).
    - fold body. rewrite !app_length. cbn. lia. }
  eexists. split.
  - unfold read_decl. rewrite decl_text. fold l body. assert (Hb : exists u, body = lit " " ++ u) by (eexists; reflexivity). destruct Hb as [u Hb].
    assert (Hsp : (lit "<?xml" ++ body ++ lit "?>") ++ rest = lit "<?xml " ++ u ++ lit "?>" ++ rest) by (rewrite Hb; repeat rewrite <- app_assoc; done).
    rewrite Hsp, drop_prefix_app. rewrite (app_assoc (lit " ")), <- Hb. change (lit "?>") with [63%N; 62%N]. cbn [app]. rewrite until_app by done.
    change (62%N :: rest) with (lit ">" ++ rest). rewrite drop_prefix_app, Hread. reflexivity.
  - unfold l, decl_attrs. destruct D as [V e b]. cbn [xd_version xd_encoding xd_standalone] in *.
    assert (Hd : forall v, v = lit "1.0" /\ V = V10 \/ v = lit "1.1" /\ V = V11 -> declares (EDecl (Some v) (option_map Some e) (option_map (fun b : bool => Some (if b then lit "yes" else lit "no")) b)) (mkDecl V e b)).
    { intros v Hv. apply (dc _ v); [by left|done| |].
      - destruct e as [e|]; [right; by exists e|by left].
      - destruct b as [b|]; [right; exists (if b then lit "yes" else lit "no"), b; split_and!; [done|done|by destruct b]|by left]. }
    destruct V; [specialize (Hd (lit "1.0"))|specialize (Hd (lit "1.1"))]; destruct e as [e|], b as [b|]; cbn in *; apply Hd; tauto.
Qed.

(** ** C74: the document that comes back *)
Lemma stands_doc E h d D xs s : Inv h -> wf_env E -> stands_for E h d (XmlDocument D None xs) -> Forall plain xs -> to_string E h d = Ok s ->
  reachable h -> exists ts, Forall2 written xs ts /\ s = match D with None => [] | Some x => xml_decl_to_string x end ++ concat ts.
Proof.
  intros HI W Hx Hp Hs Hr. destruct (C51_prints_only _ _ _ _ Hr W Hs) as (y & Hy & Hw). rewrite <- (stands_fun _ _ _ _ _ Hx Hy) in Hw. inversion Hw; subst. eauto.
Qed.
Lemma stands_kids E h d D xs : stands_for E h d (XmlDocument D None xs) -> Forall (fun x => exists i, stands_for E h i x) xs.
Proof. intros H. inversion H as [| | | | | |? n ? ? Hn Ht _ _ Hk| | | | | |]; subst. clear -Hk. induction Hk; constructor; eauto. Qed.
(** What the reader makes of a printed document. *)
Lemma printed_events E h d D xs s : reachable h -> wf_env E -> stands_for E h d (XmlDocument D None xs) -> Forall plain xs -> decl_valid D -> to_string E h d = Ok s ->
  exists evd its, (exists t, read_decl s = Some (evd, t) /\ read_back t = Some its) /\ declared evd D /\ Forall2 same_item its (content xs).
Proof.
  intros Hr W Hx Hp HD Hs. pose proof (reachable_inv _ Hr) as HI. destruct (stands_doc _ _ _ _ _ _ HI W Hx Hp Hs Hr) as (ts & Hw & ->). pose proof (stands_kids _ _ _ _ _ Hx) as Hk.
  assert (Hwn : Forall well_named xs). { clear -HI Hk Hp. induction Hk as [|x xs [i Hi] _ IH]; [constructor|]. inversion Hp; subst. constructor; [by eapply stands_named|auto]. }
  destruct (content_read xs ts Hwn Hw) as (its & Hi & Hsame). destruct D as [D|].
  - destruct (decl_read D (concat ts) HD) as (ev & H1 & H2). exists [ev], its. split; [eauto|]. split; [by constructor|done].
  - exists [], its. split; [|split; [constructor|done]]. exists (concat ts). split; [|done]. cbn [app]. unfold read_decl. rewrite no_decl with (xs := xs); [done|done|done|by eapply doc_top| |].
    2:{ intros t0 d0 Hin. apply elem_of_list_In in Hin. rewrite Forall_forall in Hk. destruct (Hk _ Hin) as [i Hi']. inversion Hi' as [| | | |? n Hn Ht| | | | | | | |]; subst.
        destruct (inv_node h HI i n Hn) as (_ & _ & _ & _ & Hnm). unfold name_ok in Hnm. rewrite Ht in Hnm. apply Hnm. }
    intros n l k Hin. apply elem_of_list_In in Hin. rewrite Forall_forall in Hk, Hp. destruct (Hk _ Hin) as [i Hi']. specialize (Hp _ Hin).
    pose proof (stands_names E h HI _ i Hi' Hp [] (List.Forall_nil _)) as Hnm. cbn in Hnm. inversion Hnm as [|? ? Hnn _]; subst. by inversion Hnn.
Qed.

(** Printed in one heap, read in any other: the new document has the content that the printed one had, except that attribute
    values are taken for attribute text once more, and text is trimmed. *)
Theorem C74_reread : forall E E' h h1 d D xs c' s, reachable h -> wf_env E -> wf_env E' -> stands_for E h d (XmlDocument D None xs) -> Forall plain xs -> decl_valid D ->
  to_string E h d = Ok s -> Forall attrs_differ (content xs) -> reread E' (content xs) c' -> NoDup (flat_map ids c') ->
  exists evs h' d' xs', reader_events s = Some evs /\ read_events E' evs h1 = (h', POk d') /\ (forall i, (i < h_next h1)%nat -> h_nodes h' !! i = h_nodes h1 !! i) /\
    stands_for E' h' d' (XmlDocument D None xs') /\ no_cycle_below h' d' /\ Forall plain xs' /\ Forall2 same_item (content xs') c'.
Proof.
  intros E E' h h1 d D xs c' s Hr W W' Hx Hp HD Hs Hdf Hrr Hnd. pose proof (reachable_inv _ Hr) as HI.
  destruct (printed_events E h d D xs s) as (evd & its & (t & Hdecl & Hback) & Hdd & Hsame); try done.
  destruct (reread_same _ _ _ Hrr _ Hsame) as (its' & Hrr' & Hsame').
  assert (Hap : apart its) by (eapply apart_same; [apply apart_content|done]).
  assert (Hnm : Forall named its).
  { eapply (Forall2_back same_item); [apply same_named|exact Hsame|]. pose proof (stands_kids _ _ _ _ _ Hx) as Hk. clear -HI Hk Hp. unfold content.
    induction Hk as [|x xs [i Hi] _ IH]; cbn; [constructor|]. inversion Hp; subst. eapply stands_names; eauto. }
  destruct (delivered_xml _ _ _ Hrr' Hap Hnm) as (xs' & Hxs' & Hc' & Hpl').
  assert (Hdf' : Forall attrs_differ its) by (eapply (Forall2_back same_item); [apply same_differ|exact Hsame|done]).
  destruct (doc_top _ _ _ _ _ HI Hx Hp) as [Ht Hone]. destruct (top_content xs Ht) as [Hct Hce]. destruct (top_same _ _ Hsame Hct) as [Hti Hie].
  assert (Hids : Forall2 (shown E') (raw_ids_all (flat_map delivered its)) (map escape (flat_map ids its'))) by (rewrite raw_ids_all_delivered; by apply shown_ids, reread_ids).
  assert (Hnd' : NoDup (map escape (flat_map ids its'))).
  { apply (NoDup_fmap_2_strong escape); [intros a b _ _; apply escape_inj|]. by rewrite (same_ids_all _ _ Hsame'). }
  destruct (C53_reads E' h1 evd D (flat_map delivered its) (map escape (flat_map ids its')) W' Hdd) as (h' & d' & Hread & Hinto); try done.
  - apply Forall_forall. intros x Hx'. apply elem_of_list_In, in_flat_map in Hx' as (y & Hy & Hxy). rewrite Forall_forall in Hnm, Hdf'.
    apply elem_of_list_In in Hy. pose proof (delivered_readable y (Hnm y Hy) (Hdf' y Hy)) as Hrd. rewrite Forall_forall in Hrd. apply Hrd. by apply elem_of_list_In.
  - unfold one_root. rewrite Hie, Hce. done.
  - exists (evd ++ events_of_all (flat_map delivered its)), h', d', xs'. split; [unfold reader_events; by rewrite Hdecl, Hback, (unescaped_same _ _ _ Hrr')|]. split; [done|]. split; [apply (ri_old _ _ _ _ _ _ _ Hinto)|].
    split; [by eapply read_stands|]. split; [by eapply read_acyclic|]. split; [done|]. by rewrite Hc'.
Qed.
Print Assumptions C74_reread.

(** ** When nothing changes *)
Lemma plain_value_denotes E v : wf_env E -> plain_value v -> denotes E v v.
Proof.
  intros W (Hc & H1 & H2). exists v, v. split; [|split].
  - apply line_ends_id. eapply Forall_impl; [exact Hc|]. cbn. intros c. tauto.
  - assert (Hm : map white_to_space v = v).
    { clear H1 H2. induction Hc as [|c v Hc _ IH]; [done|]. cbn. f_equal; [|done]. unfold white_to_space. rewrite bool_decide_false; [done|]. unfold white. tauto. }
    rewrite <- Hm at 2. apply expands_plain. intros c Hin. apply elem_of_list_In in Hin. rewrite Forall_forall in Hc. specialize (Hc c Hin). tauto.
  - by apply trimmed_id.
Qed.
Lemma settled_reread E c : wf_env E -> Forall settled c -> reread E c c.
Proof.
  intros W. assert (H : forall x, settled x -> forall r, reread E r r -> reread E (x :: r) (x :: r)).
  { intros x. induction x as [n l kids IH|v|v|v|v] using item_ind'; intros Hs r Hr; inversion Hs as [? ? ? Hl Hk|? Hne He| |? t dd Hna Hpt]; subst.
    - apply rr_element; [|clear -IH Hk; induction kids as [|y kids IHk]; [constructor|]; inversion IH; subst; inversion Hk; subst; auto|done].
      clear -Hl W. induction Hl; constructor; [|done]. split; [done|]. by apply plain_value_denotes.
    - by apply rr_text.
    - by constructor.
    - by apply rr_pi. }
  induction 1; [constructor|auto].
Qed.
(** Content without references or stray white space in its values, and without white space around its text, comes back as it was,
    and is printed the same up to the order of attributes. *)
Theorem C74_same : forall E E' h h1 d D xs s, reachable h -> reachable h1 -> wf_env E -> wf_env E' -> stands_for E h d (XmlDocument D None xs) -> Forall plain xs -> decl_valid D ->
  to_string E h d = Ok s -> Forall attrs_differ (content xs) -> Forall settled (content xs) -> NoDup (flat_map ids (content xs)) ->
  exists evs h' d' xs' s', reader_events s = Some evs /\ read_events E' evs h1 = (h', POk d') /\ stands_for E' h' d' (XmlDocument D None xs') /\ Forall plain xs' /\
    Forall2 same_item (content xs') (content xs) /\ to_string E' h' d' = Ok s' /\ written (XmlDocument D None xs') s'.
Proof.
  intros E E' h h1 d D xs s Hr Hr1 W W' Hx Hp HD Hs Hdf Hse Hnd.
  destruct (C74_reread E E' h h1 d D xs (content xs) s) as (evs & h' & d' & xs' & H1 & H2 & H3 & H4 & H5 & H6 & H7); try done; [by apply settled_reread|].
  assert (Hr' : reachable h') by (by eapply read_reachable). destruct (C51_prints E' h' d' _ Hr' W' H5 H4) as (s' & Hs' & Hw). eauto 12.
Qed.
Print Assumptions C74_same.

(** ** The printed form as a function of the content, for elements with at most one attribute *)
Definition item_attr (p : str * str) : str := lit " " ++ p.1 ++ lit "=" ++ in_quotes (escape p.2).
Fixpoint item_text (x : item) : str :=
  match x with
  | Element n l kids => lit "<" ++ n ++ flat_map item_attr l ++ lit ">" ++ flat_map item_text kids ++ lit "</" ++ n ++ lit ">"
  | Text v => escape v
  | Comment v => lit "<!--" ++ escape v ++ lit "-->"
  | CData v => lit "<![CDATA[" ++ v ++ lit "]]>"
  | Pi s => lit "<?" ++ s ++ lit "?>"
  end.
Inductive few : item -> Prop :=
| fw_element n l kids : (length l <= 1)%nat -> Forall few kids -> few (Element n l kids)
| fw_text v : few (Text v)
| fw_comment v : few (Comment v)
| fw_cdata v : few (CData v)
| fw_pi s : few (Pi s).
Lemma text_add v l : flat_map item_text (add_text v l) = escape v ++ flat_map item_text l.
Proof. destruct v as [|c v]; [done|]. destruct l as [|[?|w|?|?|?] l]; try done. cbn [add_text flat_map item_text]. by rewrite escape_app, <- app_assoc. Qed.
Lemma escaped_eq v d : escaped v d -> d = escape v.
Proof. intros H. eapply escaped_fun; [exact H|]. apply escape_escaped. Qed.
Lemma few_text x : few_attrs x -> plain x -> forall s l, written x s -> flat_map item_text (add_items x l) = s ++ flat_map item_text l.
Proof.
  apply (xml_ind' (fun x => few_attrs x -> plain x -> forall s l, written x s -> flat_map item_text (add_items x l) = s ++ flat_map item_text l)); clear x.
  - intros nm a ks IH Hf Hp s l Hw. inversion Hf as [? ? ? Hl Hfk| | | | | |]; subst. inversion Hp as [? ? ? Hpk| | | |]; subst.
    inversion Hw as [? ? a' parts ? texts Hperm Hwa Hwk| | | | | | | | | | | | | | | |]; subst. cbn [add_items flat_map item_text]. repeat rewrite <- app_assoc.
    assert (a' = a) as -> by (destruct a as [|p [|]]; [by apply Permutation_nil in Hperm|by apply Permutation_length_1_inv in Hperm|cbn in Hl; lia]).
    assert (Ha : flat_map item_attr a = concat (map (app (lit " ")) parts)).
    { clear -Hwa. induction Hwa as [|p t a parts (e & He & ->) _ IHa]; [done|]. cbn [flat_map map concat]. rewrite IHa, (escaped_eq _ _ He). done. }
    rewrite Ha.
    assert (Hks : flat_map item_text (fold_right add_items [] ks) = concat texts); [|by rewrite Hks].
    clear -IH Hfk Hpk Hwk. revert texts Hwk. induction IH as [|k ks Hk _ IHk]; intros texts Hwk; inversion Hwk; subst; [done|]. inversion Hfk; subst. inversion Hpk; subst. cbn [fold_right concat].
    erewrite Hk by eassumption. f_equal. by apply IHk.
  - intros d dt ks _ _ _ Hp. inversion Hp.
  - intros ks _ _ Hp. inversion Hp.
  - intros x. destruct x; try exact Logic.I; intros _ Hp s l Hw; inversion Hp; subst; inversion Hw; subst; cbn [add_items default]; rewrite ?text_add; try done.
    + match goal with H : escaped _ _ |- _ => by rewrite (escaped_eq _ _ H) end.
    + cbn [flat_map item_text]. repeat rewrite <- app_assoc. done.
    + cbn [flat_map item_text]. match goal with H : escaped _ _ |- _ => by rewrite (escaped_eq _ _ H), <- ?app_assoc end.
    + cbn [flat_map item_text pi_body]. repeat rewrite <- app_assoc. done.
Qed.
Lemma few_content xs ts : Forall few_attrs xs -> Forall plain xs -> Forall2 written xs ts -> flat_map item_text (content xs) = concat ts.
Proof.
  intros Hf Hp Hw. induction Hw as [|x t xs ts Hx _ IH]; [done|]. inversion Hf; subst. inversion Hp; subst. unfold content in *. cbn [fold_right concat]. rewrite (few_text x) with (s := t) by done. f_equal. auto.
Qed.
Lemma few_same x : forall y, same_item x y -> few y -> x = y.
Proof.
  induction x as [n l kids IH|v|v|v|v] using item_ind'; intros y Hs Hy; inversion Hs as [? ? l' ? kids' Hp Hk| | | |]; subst; [|done..]. inversion Hy as [? ? ? Hl Hf| | | |]; subst. f_equal.
  - destruct l' as [|p [|]]; [by apply Permutation_nil|by apply Permutation_length_1_inv|cbn in Hl; lia].
  - clear -IH Hk Hf. induction Hk; [done|]. inversion IH; subst. inversion Hf; subst. f_equal; eauto.
Qed.
Lemma few_items x : few_attrs x -> plain x -> forall l, Forall few l -> Forall few (add_items x l).
Proof.
  apply (xml_ind' (fun x => few_attrs x -> plain x -> forall l, Forall few l -> Forall few (add_items x l))); clear x.
  - intros nm a ks IH Hf Hp l Hl. inversion Hf as [? ? ? Ha Hfk| | | | | |]; subst. inversion Hp as [? ? ? Hpk| | | |]; subst. cbn [add_items]. constructor; [|done]. constructor; [done|].
    clear -IH Hfk Hpk. induction IH; cbn; [constructor|]. inversion Hfk; subst. inversion Hpk; subst. auto.
  - intros d dt ks _ _ _ Hp. inversion Hp.
  - intros ks _ _ Hp. inversion Hp.
  - intros x. destruct x; try exact Logic.I; intros _ Hp l Hl; inversion Hp; subst; cbn [add_items].
    + generalize (default [] v). intros [|c w]; [done|]. destruct Hl as [|[] l Hx Hl]; cbn; (constructor; [apply fw_text|]); try done; by constructor.
    + destruct v; [|done]. constructor; [constructor|done].
    + destruct v; [|done]. constructor; [constructor|done].
    + constructor; [constructor|done].
Qed.
(** With at most one attribute per element the very same text is printed again. *)
Theorem C74_same_text : forall E E' h h1 d D xs s, reachable h -> reachable h1 -> wf_env E -> wf_env E' -> stands_for E h d (XmlDocument D None xs) -> Forall plain xs -> decl_valid D ->
  to_string E h d = Ok s -> Forall few_attrs xs -> Forall settled (content xs) -> NoDup (flat_map ids (content xs)) ->
  exists evs h' d', reader_events s = Some evs /\ read_events E' evs h1 = (h', POk d') /\ to_string E' h' d' = Ok s.
Proof.
  intros E E' h h1 d D xs s Hr Hr1 W W' Hx Hp HD Hs Hf Hse Hnd.
  assert (Hfc : Forall few (content xs)). { unfold content. clear -Hf Hp. induction Hf; cbn; [constructor|]. inversion Hp; subst. apply few_items; auto. }
  assert (Hdf : Forall attrs_differ (content xs)).
  { eapply Forall_impl; [exact Hfc|]. intros x. induction x as [n l kids IH|v|v|v|v] using item_ind'; intros Hx'; inversion Hx' as [? ? ? Hl Hk| | | |]; subst; [|constructor..]. constructor.
    - destruct l as [|p [|]]; cbn in *; [constructor|apply NoDup_singleton|lia].
    - clear -IH Hk. induction IH; [constructor|]. inversion Hk; subst. constructor; auto. }
  destruct (C74_same E E' h h1 d D xs s) as (evs & h' & d' & xs' & s' & H1 & H2 & H3 & H4 & H5 & H6 & H7); try done. exists evs, h', d'. split; [done|]. split; [done|]. rewrite H6. f_equal.
  destruct (stands_doc _ _ _ _ _ _ (reachable_inv _ Hr) W Hx Hp Hs Hr) as (ts & Hw & ->).
  assert (Heq : content xs' = content xs). { clear -H5 Hfc. induction H5; [done|]. inversion Hfc; subst. f_equal; [by apply few_same|auto]. }
  inversion H7 as [| | | | | | | | | |? ? texts Hw'| | | | | |]; subst. f_equal. rewrite <- (few_content _ _ Hf Hp Hw), <- Heq. symmetry. 
  apply few_content; [|done|done]. clear -Heq Hfc H4. rewrite <- Heq in Hfc. clear Heq.
  assert (G : forall x, plain x -> forall l, Forall few (add_items x l) -> few_attrs x /\ Forall few l).
  { intros x. apply (xml_ind' (fun x => plain x -> forall l, Forall few (add_items x l) -> few_attrs x /\ Forall few l)); clear x.
    - intros nm a ks IH Hp l Hl. cbn in Hl. inversion Hl as [|? ? Hx Hl']; subst. inversion Hx as [? ? ? Ha Hk| | | |]; subst. split; [|done]. constructor; [done|]. inversion Hp as [? ? ? Hpk| | | |]; subst.
      clear -IH Hk Hpk. induction IH as [|k ks Hk' _ IHk]; [constructor|]. inversion Hpk; subst. cbn in Hk. destruct (Hk' ltac:(done) _ Hk) as [? ?]. constructor; auto.
    - intros dd dt ks _ _ Hp. inversion Hp.
    - intros ks _ Hp. inversion Hp.
    - intros x. destruct x; try exact Logic.I; intros Hp l Hl; inversion Hp; subst; cbn [add_items] in Hl; (split; [constructor|]).
      + destruct (default [] v) as [|c w]; [done|]. destruct l as [|[] l]; cbn in Hl; inversion Hl; subst; try done. constructor; [constructor|done].
      + destruct v; [by inversion Hl|done].
      + destruct v; [by inversion Hl|done].
      + by inversion Hl. }
  induction H4 as [|x xs1 Hx _ IH]; [constructor|]. unfold content in *. cbn in Hfc. destruct (G x Hx _ Hfc). constructor; auto.
Qed.
Print Assumptions C74_same_text.

(** ** An example: one document, printed and read, in full *)
Definition ex_round_ops : list op :=
  [OCreateDocument None None None options_new; OSetXmlDecl 0 (mkDecl V10 (Some (lit "utf-8")) (Some true)); OCreateElement 0 (lit "a"); OSetAttribute 1 (lit "k") (lit "1<2");
   OCreateText 0 (lit "1 & 2"); OAppendChild 1 4; OCreateText 0 (lit "<3"); OAppendChild 1 5; OCreateComment 0 (lit "a>b"); OAppendChild 1 6;
   OCreateElement 0 (lit "p:b"); OAppendChild 1 7; OCreateText 0 (lit "t"); OAppendChild 7 8; OAppendChild 0 1].
Definition ex_round : heap := default empty_heap (run env0 ex_round_ops empty_heap).
Definition ex_round_doc : list xml :=
  [XmlElement (lit "a") [(lit "k", lit "1<2")] [XmlText (Some (lit "1 & 2")); XmlText (Some (lit "<3")); XmlComment (Some (lit "a>b")); XmlElement (lit "p:b") [] [XmlText (Some (lit "t"))]]].
Definition ex_round_text : str := lit "<?xml version=""1.0"" encoding=""utf-8"" standalone=""yes""?><a k=""1&#60;2"">1 &#38; 2&#60;3<!--a&#62;b--><p:b>t</p:b></a>".
Definition reprint (ops : list op) : option (str * id * res str) :=
  match run env0 ops empty_heap with
  | Some h => match to_string env0 h 0 with
              | Ok s => match reader_events s with
                        | Some evs => match read_events env0 evs h with (h', POk d') => Some (s, d', to_string env0 h' d') | _ => None end
                        | None => None
                        end
              | _ => None
              end
  | None => None
  end.
Lemma reprint_ok ops s d' r : reprint ops = Some (s, d', r) -> exists h evs h', run env0 ops empty_heap = Some h /\ to_string env0 h 0 = Ok s /\ reader_events s = Some evs /\
  read_events env0 evs h = (h', POk d') /\ to_string env0 h' d' = r.
Proof.
  unfold reprint. destruct (run env0 ops empty_heap) as [h|]; [|done]. destruct (to_string env0 h 0) as [t| | |] eqn:Ht; try done. destruct (reader_events t) as [evs|] eqn:He; [|done].
  destruct (read_events env0 evs h) as [h' [d| | |]] eqn:Hr; try done. intros [= <- <- <-]. eauto 10.
Qed.
Example ex_round_reachable : reachable ex_round.
Proof. apply (run0_reachable ex_round_ops). by vm_compute. Qed.
Lemma ex_round_stands : stands_for env0 ex_round 0 (XmlDocument (Some (mkDecl V10 (Some (lit "utf-8")) (Some true))) None ex_round_doc).
Proof. let n := the_node ex_round 0 in refine (sf_document env0 ex_round 0 n _ ex_round_doc _ _ _ _ _); [by vm_compute|done|by vm_compute|by vm_compute|]. unfold ex_round_doc. cbn [n_children]. show. Qed.
Lemma edges_plain v : (forall c u, v = c :: u -> ~ edge_white c) -> (forall c u, v = u ++ [c] -> ~ edge_white c) -> edges_gone v v.
Proof. intros H1 H2. exists [], []. rewrite app_nil_r. split_and!; try done; constructor. Qed.
Lemma edges_checked v : edge_whiteb (hd 0%N v) = false -> edge_whiteb (hd 0%N (rev v)) = false -> edges_gone v v.
Proof.
  intros H1 H2. apply edges_plain.
  - intros c u -> Hc%edge_whiteb_spec. cbn in H1. congruence.
  - intros c u -> Hc%edge_whiteb_spec. rewrite rev_app_distr in H2. cbn in H2. congruence.
Qed.
Ltac settle :=
  lazymatch goal with
  | |- Forall _ [] => apply List.Forall_nil
  | |- Forall _ (_ :: _) => apply List.Forall_cons; [settle|settle]
  | |- settled (Element _ _ _) => apply se_element; [settle|settle]
  | |- settled (Text _) => apply se_text; [by vm_compute|apply edges_checked; by vm_compute]
  | |- settled (Comment _) => apply se_comment
  | |- plain_value (snd (_, ?v)) => cbn [snd]; split; [letters; each ltac:(lia)|split; intros x; [by vm_compute|intros Hx; apply (f_equal (@rev N)) in Hx; rewrite rev_app_distr in Hx; by vm_compute in Hx]]
  end.
Example C74_example : reachable ex_round /\ stands_for env0 ex_round 0 (XmlDocument (Some (mkDecl V10 (Some (lit "utf-8")) (Some true))) None ex_round_doc) /\ Forall plain ex_round_doc /\
  to_string env0 ex_round 0 = Ok ex_round_text /\ Forall few_attrs ex_round_doc /\
  content ex_round_doc = [Element (lit "a") [(lit "k", lit "1<2")] [Text (lit "1 & 2<3"); Comment (lit "a>b"); Element (lit "p:b") [] [Text (lit "t")]]] /\
  Forall settled (content ex_round_doc) /\ NoDup (flat_map ids (content ex_round_doc)) /\
  exists evs h' d', reader_events ex_round_text = Some evs /\ read_events env0 evs ex_round = (h', POk d') /\ to_string env0 h' d' = Ok ex_round_text /\ d' = 9.
Proof.
  split; [exact ex_round_reachable|]. split; [exact ex_round_stands|]. split; [by repeat constructor|]. split; [by vm_compute|].
  split; [unfold ex_round_doc; repeat constructor|]. split; [by vm_compute|].
  assert (Hc : content ex_round_doc = [Element (lit "a") [(lit "k", lit "1<2")] [Text (lit "1 & 2<3"); Comment (lit "a>b"); Element (lit "p:b") [] [Text (lit "t")]]]) by (by vm_compute).
  rewrite Hc. split; [settle|]. split; [constructor|].
  destruct (reprint_ok ex_round_ops ex_round_text 9 (Ok ex_round_text)) as (h & evs & h' & H1 & H2 & H3 & H4 & H5); [by vm_compute|]. unfold ex_round. rewrite H1. cbn [default]. eauto 10.
Qed.

(** ** When something changes *)
Definition ex_value (v : str) : list op := [OCreateDocument None None None options_new; OCreateElement 0 (lit "a"); OSetAttribute 1 (lit "k") v; OAppendChild 0 1].
Definition ex_text (v : str) : list op := [OCreateDocument None None None options_new; OCreateElement 0 (lit "a"); OCreateText 0 v; OAppendChild 1 2; OAppendChild 0 1].
Definition printed_twice (ops : list op) (s s' : str) : Prop :=
  exists h evs h' d', run env0 ops empty_heap = Some h /\ to_string env0 h 0 = Ok s /\ reader_events s = Some evs /\ read_events env0 evs h = (h', POk d') /\ to_string env0 h' d' = Ok s'.
Lemma twice_ok ops d' s s' : reprint ops = Some (s, d', Ok s') -> printed_twice ops s s'.
Proof. intros (h & evs & h' & H)%reprint_ok. exists h, evs, h', d'. exact H. Qed.
(** A value that looks like a reference becomes the character it refers to. *)
Theorem C74_values_refuted : printed_twice (ex_value (lit "&#38;#60;")) (lit "<a k=""&#38;#60;""></a>") (lit "<a k=""&#60;""></a>").
Proof. apply (twice_ok _ 4). by vm_compute. Qed.
Print Assumptions C74_values_refuted.
(** White space in a value becomes a space. *)
Theorem C74_white_refuted : printed_twice (ex_value (lit "x&#10;y")) (lit "<a k=""x" ++ [10%N] ++ lit "y""></a>") (lit "<a k=""x y""></a>").
Proof. apply (twice_ok _ 4). by vm_compute. Qed.
Print Assumptions C74_white_refuted.
(** Text is trimmed, and blank text vanishes. *)
Theorem C74_text_refuted : printed_twice (ex_text (lit " x ")) (lit "<a> x </a>") (lit "<a>x</a>") /\ printed_twice (ex_text (lit " ")) (lit "<a> </a>") (lit "<a></a>").
Proof. split; apply (twice_ok _ 3); by vm_compute. Qed.
Print Assumptions C74_text_refuted.
(** The document read from what a document prints may be one whose printing panics. *)
Theorem C74_panics_refuted : exists h s evs h' d' p, run env0 (ex_value (lit "&#38;lt;")) empty_heap = Some h /\ to_string env0 h 0 = Ok s /\ s = lit "<a k=""&#38;lt;""></a>" /\
  reader_events s = Some evs /\ read_events env0 evs h = (h', POk d') /\ to_string env0 h' d' = Panic p.
Proof.
  destruct (reprint (ex_value (lit "&#38;lt;"))) as [[[s d'] r]|] eqn:Hr; [|by vm_compute in Hr]. assert (Hv : exists p, (s, r) = (lit "<a k=""&#38;lt;""></a>", Panic p)).
  { assert (Hb : match reprint (ex_value (lit "&#38;lt;")) with Some (s, _, Panic _) => str_eqb s (lit "<a k=""&#38;lt;""></a>") | _ => false end = true) by (by vm_compute).
    rewrite Hr in Hb. clear Hr. destruct r as [| |p|]; try done. apply str_eqb_true in Hb as ->. by exists p. }
  destruct Hv as (p & Hv). apply reprint_ok in Hr as (h & evs & h' & H1 & H2 & H3 & H4 & H5).
  generalize dependent (ex_value (lit "&#38;lt;")). intros ops H1. injection Hv as -> ->. by exists h, (lit "<a k=""&#38;lt;""></a>"), evs, h', d', p.
Qed.
Print Assumptions C74_panics_refuted.

(** ** Processing instructions and CDATA sections *)
Definition ex_pi_ops : list op :=
  [OCreateDocument None None None options_new; OCreatePI 0 (lit "xml-stylesheet") (Some (lit "href=""a.css"" + more")); OAppendChild 0 1; OCreateElement 0 (lit "a"); OAppendChild 0 2;
   OCreatePI 0 (lit "p") None; OAppendChild 2 3; OCreateText 0 (lit "t"); OAppendChild 2 4; OCreatePI 0 (lit "q") (Some (lit "1 < 2?")); OAppendChild 2 5].
Definition ex_pi : heap := default empty_heap (run env0 ex_pi_ops empty_heap).
Definition ex_pi_doc : list xml :=
  [XmlPI (lit "xml-stylesheet") (Some (lit "href=""a.css"" + more")); XmlElement (lit "a") [] [XmlPI (lit "p") None; XmlText (Some (lit "t")); XmlPI (lit "q") (Some (lit "1 < 2?"))]].
Definition ex_pi_text : str := lit "<?xml-stylesheet href=""a.css"" + more?><a><?p?>t<?q 1 < 2??></a>".
Lemma settled_pi s t d : has_char 38 s = false -> pi_parts s = (t, d) -> s = pi_body t d -> settled (Pi s).
Proof. intros Ha H%pi_parts_text Hs. eapply se_pi; [|done|done]. rewrite <- has_char_spec. congruence. Qed.
Example C74_pi_example : reachable ex_pi /\ stands_for env0 ex_pi 0 (XmlDocument None None ex_pi_doc) /\ Forall plain ex_pi_doc /\ to_string env0 ex_pi 0 = Ok ex_pi_text /\ Forall few_attrs ex_pi_doc /\
  content ex_pi_doc = [Pi (lit "xml-stylesheet href=""a.css"" + more"); Element (lit "a") [] [Pi (lit "p"); Text (lit "t"); Pi (lit "q 1 < 2?")]] /\
  Forall settled (content ex_pi_doc) /\
  exists evs h' d', reader_events ex_pi_text = Some evs /\ read_events env0 evs ex_pi = (h', POk d') /\ to_string env0 h' d' = Ok ex_pi_text.
Proof.
  assert (Hp : Forall plain ex_pi_doc).
  { unfold ex_pi_doc. apply List.Forall_cons; [|apply List.Forall_cons; [|constructor]].
    - apply pl_pi. intros s [= <-]. vm_compute. intuition discriminate.
    - apply pl_element. repeat apply List.Forall_cons; [apply pl_pi; done|apply pl_text| |constructor]. apply pl_pi. intros s [= <-]. vm_compute. intuition discriminate. }
  split; [apply (run0_reachable ex_pi_ops); by vm_compute|].
  split; [let n := the_node ex_pi 0 in refine (sf_document env0 ex_pi 0 n _ ex_pi_doc _ _ _ _ _); [by vm_compute|done|by vm_compute|by vm_compute|]; unfold ex_pi_doc; cbn [n_children]; show|].
  split; [done|]. split; [by vm_compute|]. split; [unfold ex_pi_doc; repeat constructor|].
  assert (Hc : content ex_pi_doc = [Pi (lit "xml-stylesheet href=""a.css"" + more"); Element (lit "a") [] [Pi (lit "p"); Text (lit "t"); Pi (lit "q 1 < 2?")]]) by (by vm_compute).
  split; [done|]. rewrite Hc. split.
  - repeat apply List.Forall_cons; try apply List.Forall_nil.
    + eapply settled_pi; by vm_compute.
    + apply se_element; [constructor|]. repeat apply List.Forall_cons; try apply List.Forall_nil; [eapply settled_pi; by vm_compute|apply se_text; [done|apply edges_checked; by vm_compute]|eapply settled_pi; by vm_compute].
  - destruct (reprint_ok ex_pi_ops ex_pi_text 6 (Ok ex_pi_text)) as (h & evs & h' & H1 & H2 & H3 & H4 & H5); [by vm_compute|]. unfold ex_pi. rewrite H1. cbn [default]. eauto 10.
Qed.
(** A CDATA section grows by two spaces each time it is printed. *)
Definition ex_cdata (v : str) : list op := [OCreateDocument None None None options_new; OCreateElement 0 (lit "a"); OCreateCData 0 v; OAppendChild 1 2; OAppendChild 0 1].
Theorem C74_cdata_refuted : printed_twice (ex_cdata (lit "x")) (lit "<a><![CDATA[ x ]]></a>") (lit "<a><![CDATA[  x  ]]></a>").
Proof. apply (twice_ok _ 3). by vm_compute. Qed.
Print Assumptions C74_cdata_refuted.
(** White space around the data of an instruction goes; data that is blank goes with it. *)
Definition ex_data (v : str) : list op := [OCreateDocument None None None options_new; OCreatePI 0 (lit "p") (Some v); OAppendChild 0 1].
Theorem C74_data_refuted : printed_twice (ex_data (lit " x ")) (lit "<?p  x ?>") (lit "<?p x?>") /\ printed_twice (ex_data (lit " ")) (lit "<?p  ?>") (lit "<?p?>").
Proof. split; apply (twice_ok _ 2); by vm_compute. Qed.
Print Assumptions C74_data_refuted.
(** No reachable state has an instruction with a reserved target, so none is taken for the XML declaration. *)
Theorem C74_targets : forall h i n, reachable h -> h_nodes h !! i = Some n -> n_type n = NProcessingInstruction -> ~ xml_target (name_to_string (n_name n)).
Proof. intros h i n Hr Hn Ht. destruct (inv_node h (reachable_inv _ Hr) i n Hn) as (_ & _ & _ & _ & Hnm). unfold name_ok in Hnm. rewrite Ht in Hnm. apply Hnm. Qed.
Print Assumptions C74_targets.

(** Instructions are printed as they are but unescaped when read: with an [&] one is lost without notice inside an element, with
    everything after it up to the end of the element, and at the top it makes the document unreadable. *)
Definition ex_amp : list op :=
  [OCreateDocument None None None options_new; OCreateElement 0 (lit "a"); OCreateText 0 (lit "t"); OAppendChild 1 2; OCreatePI 0 (lit "p") (Some (lit "x & y")); OAppendChild 1 3; OAppendChild 0 1].
Theorem C74_lost_refuted : printed_twice ex_amp (lit "<a>t<?p x & y?></a>") (lit "<a>t</a>").
Proof. apply (twice_ok _ 4). by vm_compute. Qed.
Print Assumptions C74_lost_refuted.
Theorem C74_unreadable_refuted : exists h evs h', run env0 (ex_data (lit "x & y")) empty_heap = Some h /\ to_string env0 h 0 = Ok (lit "<?p x & y?>") /\
  reader_events (lit "<?p x & y?>") = Some evs /\ read_events env0 evs h = (h', PErr PEQuickXml).
Proof.
  destruct (run env0 (ex_data (lit "x & y")) empty_heap) as [h|] eqn:Hr; [|by vm_compute in Hr]. destruct (reader_events (lit "<?p x & y?>")) as [evs|] eqn:He; [|by vm_compute in He].
  destruct (read_events env0 evs h) as [h' r] eqn:Hd. exists h, evs, h'. split; [done|].
  assert (Hc : match run env0 (ex_data (lit "x & y")) empty_heap, reader_events (lit "<?p x & y?>") with
    | Some h, Some evs => match to_string env0 h 0, snd (read_events env0 evs h) with Ok s, PErr PEQuickXml => str_eqb s (lit "<?p x & y?>") | _, _ => false end | _, _ => false end = true) by (by vm_compute).
  rewrite Hr, He, Hd in Hc. cbn [snd] in Hc. destruct (to_string env0 h 0) as [s| | |]; try done. destruct r as [|[]| |]; try done. apply str_eqb_true in Hc. by subst s.
Qed.
Print Assumptions C74_unreadable_refuted.
