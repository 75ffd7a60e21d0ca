(** * ProofStream: reading event by event *)
From Coq Require Import Lia.
From Verif Require Import SpecStream ProofSteps ProofInv ProofFrame.

#[local] Opaque attr_value.

(** ** What a computation may do to the nodes below [N], and how many nodes it may make *)
Definition grows (N : nat) (h h' : heap) : Prop :=
  forall i n, (i < N)%nat -> h_nodes h !! i = Some n -> exists n', h_nodes h' !! i = Some n' /\ continued n n'.
Lemma continued_refl n : continued n n.
Proof. split; try done; [exists []; by rewrite app_nil_r|constructor]. Qed.
Lemma extended_trans a b c : extended a b -> extended b c -> extended a c.
Proof.
  intros H1 H2. destruct H1 as [|D D' dt m more o HD]; [done|]. inversion H2 as [|D1 D2 dt2 m2 more2 o2 HD2]; subst; [by constructor|].
  rewrite <- app_assoc. constructor. destruct HD as [ -> | -> ]; [by left|]. done.
Qed.
Lemma continued_trans a b c : continued a b -> continued b c -> continued a c.
Proof.
  intros [A1 A2 A3 A4 A5 [x Hx] A7] [B1 B2 B3 B4 B5 [y Hy] B7]. split; try congruence; [|by eapply extended_trans].
  exists (x ++ y). by rewrite Hy, Hx, app_assoc.
Qed.
Lemma grows_refl N h : grows N h h.
Proof. intros i n _ Hn. exists n. split; [done|]. apply continued_refl. Qed.
Lemma grows_trans N M h1 h2 h3 : (N <= M)%nat -> grows N h1 h2 -> grows M h2 h3 -> grows N h1 h3.
Proof.
  intros HNM G1 G2 i n Hi Hn. destruct (G1 i n Hi Hn) as (n1 & Hn1 & C1). destruct (G2 i n1 ltac:(lia) Hn1) as (n2 & Hn2 & C2).
  exists n2. split; [done|]. by eapply continued_trans.
Qed.

(** From [h], with at most [c] nodes made. *)
Definition adds (N c : nat) (h h' : heap) : Prop := grows N h h' /\ (h_next h <= h_next h' <= h_next h + c)%nat.
Lemma adds_refl N c h : adds N c h h.
Proof. split; [apply grows_refl|lia]. Qed.
Lemma adds_trans N a b c h1 h2 h3 : (a + b <= c)%nat -> adds N a h1 h2 -> adds N b h2 h3 -> adds N c h1 h3.
Proof. intros Hc [G1 L1] [G2 L2]. split; [by eapply grows_trans|lia]. Qed.

Definition addsM {A} (N c : nat) (h : heap) (m : M A) : Prop := forall h' r, m h = (h', r) -> adds N c h h'.
Lemma am_ret {A} N c h (a : A) : addsM N c h (ret a).
Proof. intros h' r [= <- <-]. apply adds_refl. Qed.
Lemma am_fail {A} N c h e : addsM N c h (@fail A e).
Proof. intros h' r [= <- <-]. apply adds_refl. Qed.
Lemma am_panic {A} N c h p : addsM N c h (@panic_ A p).
Proof. intros h' r [= <- <-]. apply adds_refl. Qed.
Lemma am_lift {A} N c h (f : heap -> res A) : addsM N c h (lift f).
Proof. intros h' r [= <- <-]. apply adds_refl. Qed.
Lemma am_get N c h i : addsM N c h (getM i).
Proof. apply am_lift. Qed.
Lemma am_bind {A B} N a b c h (m : M A) (k : A -> M B) : (a + b <= c)%nat -> addsM N a h m ->
  (forall h1 x, m h = (h1, Ok x) -> (h_next h <= h_next h1)%nat -> addsM N b h1 (k x)) -> addsM N c h (bind m k).
Proof.
  intros Hc Hm Hk h' r H. unfold bind in H. destruct (m h) as [h1 [x|e|p|]] eqn:Em; pose proof (Hm _ _ Em) as [G L].
  - eapply (adds_trans N a b); [done|by split|]. eapply Hk; [done|lia|done].
  - injection H as <- <-. split; [done|lia].
  - injection H as <- <-. split; [done|lia].
  - injection H as <- <-. split; [done|lia].
Qed.
Lemma am_bind0 {A B} N c h (m : M A) (k : A -> M B) : addsM N 0 h m ->
  (forall h1 x, m h = (h1, Ok x) -> (h_next h <= h_next h1)%nat -> addsM N c h1 (k x)) -> addsM N c h (bind m k).
Proof. intros Hm Hk. by eapply (am_bind N 0 c). Qed.
Lemma am_bind_read {A B} N c h (f : heap -> res A) (k : A -> M B) : (forall x, f h = Ok x -> addsM N c h (k x)) -> addsM N c h (bind (lift f) k).
Proof. intros Hk. apply am_bind0; [apply am_lift|]. intros h1 x [= <- Hx] _. by apply Hk. Qed.
Lemma am_bind_get {B} N c h i (k : node -> M B) : (forall n, h_nodes h !! i = Some n -> addsM N c h (k n)) -> addsM N c h (bind (getM i) k).
Proof. intros Hk. apply am_bind_read. intros x Hx. apply Hk. unfold get_node in Hx. destruct (h_nodes h !! i); [|done]. by injection Hx as ->. Qed.
Lemma am_alloc N h n : (N <= h_next h)%nat -> addsM N 1 h (allocM n).
Proof.
  intros HN h' r [= <- <-]. split; [|cbn; lia]. intros i x Hi Hx. exists x. split; [|apply continued_refl]. cbn. rewrite lookup_insert_ne; [done|lia].
Qed.
Lemma am_modify N c h i f : (N <= i)%nat \/ (forall n, h_nodes h !! i = Some n -> continued n (f n)) -> addsM N c h (modifyM i f).
Proof.
  intros Hf h' r H. unfold modifyM in H. destruct (h_nodes h !! i) as [x|] eqn:Hx; injection H as <- <-; [|apply adds_refl]. split; [|cbn; lia].
  intros j n Hj Hn. cbn. destruct (decide (i = j)) as [->|Hne].
  - rewrite lookup_insert. exists (f x). split; [done|]. destruct Hf as [Hf|Hf]; [lia|]. assert (n = x) as -> by congruence. by apply Hf.
  - rewrite lookup_insert_ne by done. exists n. split; [done|]. apply continued_refl.
Qed.
Lemma am_unwrap {A} N c h p (m : M A) : addsM N c h m -> addsM N c h (err_to_panic p m).
Proof. intros Hm h' r H. unfold err_to_panic in H. destruct (m h) as [h1 [x|e|q|]] eqn:Em; injection H as <- <-; by eapply Hm. Qed.
Lemma am_handle {A} N c h d (m : M A) : addsM N c h m -> addsM N c h (with_handle d m).
Proof. intros Hm. unfold with_handle. apply am_bind_get. by intros n _. Qed.

(** ** The calls of the reader *)
(** A new node without parent, at or above [N]. *)
Definition loose (N : nat) (h : heap) (i : id) : Prop := (N <= i)%nat /\ exists n, h_nodes h !! i = Some n /\ n_parent n = None /\ n_type n <> NDocumentFragment.
Lemma am_append N h p c : loose N h c -> addsM N 0 h (append_child p c).
Proof.
  intros (Hc & n & Hn & Hpar & Hfr). unfold append_child, insert_before. apply am_bind_get. intros ns Hns. apply am_bind_get. intros nc Hnc.
  assert (nc = n) as -> by congruence. destruct (negb _); [apply am_fail|].
  apply am_bind0; [destruct (_ && _); [apply am_lift|apply am_ret]|]. intros h1 second H1 _.
  assert (h1 = h) as -> by (destruct (_ && _); by injection H1). destruct second; [apply am_fail|].
  apply am_bind0; [apply am_ret|]. intros h1 pos H2 _. injection H2 as <- <-. apply am_bind_read. intros _ _. apply am_bind_read. intros par Hp.
  unfold parent_node, get_node in Hp. rewrite Hn in Hp. cbn in Hp. rewrite Hpar in Hp.
  assert (par = None) as ->.
  { revert Hp. repeat case_match; intros; by simplify_eq. }
  apply am_bind0; [apply am_ret|]. intros h1 [] H3 _. injection H3 as <-. destruct (bool_decide _); [apply am_panic|].
  apply am_bind0; [apply am_modify; by left|]. intros h1 [] _ _.
  apply am_bind0; [|intros; apply am_ret]. unfold is_type, type_eqb. rewrite bool_decide_eq_false_2 by done.
  unfold insert_or_append. apply am_bind_get. intros x Hx. apply am_modify. right. intros y Hy. split; try done; [by eexists|constructor].
Qed.
Lemma am_set_attribute E N h e a : (N <= e)%nat -> (N <= a)%nat -> addsM N 0 h (set_attribute_node E e a).
Proof.
  intros He Ha. unfold set_attribute_node. apply am_bind_get. intros ns _. apply am_bind_get. intros na _. destruct (negb _); [apply am_fail|].
  apply am_bind_read. intros _ _. apply am_bind0; [destruct (n_ext na); try apply am_panic; apply am_modify; by left|]. intros h1 [] _ _.
  apply am_bind0.
  { destruct (is_namespace_attribute _); [|apply am_ret]. apply am_bind_read. intros v _. unfold insert_mapping. apply am_bind_read. intros b _.
    destruct (negb b); [apply am_ret|]. apply am_bind_get. intros x _. destruct (is_type _ _); [|apply am_fail]. destruct (n_ext x); try apply am_fail. apply am_modify; by left. }
  intros h2 [] _ _. apply am_bind_get. intros x _. destruct (n_ext x); try apply am_fail. apply am_bind0; [apply am_modify; by left|]. intros h3 [] _ _.
  apply am_bind_read. intros d _. destruct (bool_decide _); [apply am_panic|]. apply am_bind_get. intros nd Hnd. destruct (is_id_attribute _ _); [|apply am_ret].
  destruct (n_ext nd) as [| |D dt m o| | | |] eqn:Hx; try apply am_ret. apply am_bind_read. intros v _. destruct (hm_get v m) eqn:Hg; [apply am_fail|].
  apply am_bind0; [|intros; apply am_ret]. apply am_modify. right. intros y Hy. assert (y = nd) as -> by congruence.
  assert (hm_insert v e m = m ++ [(v, e)]) as ->.
  { clear -Hg. induction m as [|[k w] m IH]; [done|]. cbn in *. destruct (bool_decide _); [done|]. by rewrite (IH Hg). }
  split; try done; [exists []; by rewrite app_nil_r|]. rewrite Hx. cbn [n_ext set_ext]. constructor. by right.
Qed.
(** Making a node. *)
Lemma made N h n : (N <= h_next h)%nat -> n_parent n = None -> n_type n <> NDocumentFragment -> forall h' i, allocM n h = (h', Ok i) -> loose N h' i.
Proof. intros HN H1 H2 h' i [= <- <-]. split; [done|]. exists n. cbn. by rewrite lookup_insert. Qed.
Definition makes (N : nat) (h : heap) (m : M id) : Prop := addsM N 1 h m /\ forall h' i, m h = (h', Ok i) -> loose N h' i.
Lemma makes_alloc N h n : (N <= h_next h)%nat -> n_parent n = None -> n_type n <> NDocumentFragment -> makes N h (allocM n).
Proof. intros HN H1 H2. split; [by apply am_alloc|by apply made]. Qed.
Lemma makes_read {A} N h (f : heap -> res A) (k : A -> M id) : (forall x, f h = Ok x -> makes N h (k x)) -> makes N h (bind (lift f) k).
Proof.
  intros Hk. split; [apply am_bind_read; intros x Hx; by apply Hk|]. intros h' i H. unfold bind, lift in H.
  destruct (f h) eqn:Hf; try done. by apply (Hk _ eq_refl).
Qed.
Lemma makes_handle N h d m : makes N h m -> makes N h (with_handle d m).
Proof. intros Hm. unfold with_handle, getM. apply makes_read. by intros x _. Qed.
Lemma makes_fail N h e : makes N h (fail e).
Proof. split; [apply am_fail|done]. Qed.
Lemma makes_element N h d s : (N <= h_next h)%nat -> makes N h (create_element d s).
Proof. intros HN. apply makes_handle, makes_read. intros nm _. by apply makes_alloc. Qed.
Lemma makes_text N h d s : (N <= h_next h)%nat -> makes N h (create_text_node d s).
Proof. intros HN. apply makes_handle. by apply makes_alloc. Qed.
Lemma makes_cdata N h d s : (N <= h_next h)%nat -> makes N h (create_cdata_section d s).
Proof. intros HN. apply makes_handle. by apply makes_alloc. Qed.
Lemma makes_comment N h d s : (N <= h_next h)%nat -> makes N h (create_comment d s).
Proof. intros HN. apply makes_handle. by apply makes_alloc. Qed.
Lemma makes_pi N h d t s : (N <= h_next h)%nat -> makes N h (create_processing_instruction d t s).
Proof. intros HN. apply makes_handle. destruct (str_eqb _ _); [apply makes_fail|]. apply makes_read. intros nm _. by apply makes_alloc. Qed.
Lemma makes_attribute N h d n v : (N <= h_next h)%nat -> addsM N 2 h (create_attribute_with d n v) /\ forall h' a, create_attribute_with d n v h = (h', Ok a) -> (N <= a)%nat.
Proof.
  intros HN. split.
  - apply am_handle, am_bind_read. intros nm _. eapply (am_bind N 1 1); [lia| |].
    + unfold new_attribute. eapply (am_bind N 1 0); [lia| |intros; apply am_ret]. eapply (am_bind N 1 0); [lia|by apply am_alloc|intros; apply am_ret].
    + intros h1 a _ HL. apply am_alloc. lia.
  - intros h' a H. unfold create_attribute_with, with_handle, bind, getM, lift, get_node in H. destruct (h_nodes h !! d); [|done].
    destruct (name_from_str n); try done. cbn in H. injection H as <- <-. lia.
Qed.

(** ** The handlers of the events *)
Definition addsP {A} (N c : nat) (h : heap) (m : PM A) : Prop := forall h' r, m h = (h', r) -> adds N c h h'.
Lemma ap_ret {A} N c h (a : A) : addsP N c h (pret a).
Proof. intros h' r [= <- <-]. apply adds_refl. Qed.
Lemma ap_fail {A} N c h e : addsP N c h (@pfail A e).
Proof. intros h' r [= <- <-]. apply adds_refl. Qed.
Lemma ap_dom {A} N c h (m : M A) : addsM N c h m -> addsP N c h (pdom m).
Proof. intros Hm h' r H. unfold pdom in H. destruct (m h) as [h1 [x|e|q|]] eqn:Em; injection H as <- <-; by eapply Hm. Qed.
Lemma ap_dom_unwrap {A} N c h (m : M A) : addsM N c h m -> addsP N c h (pdom_unwrap m).
Proof. intros Hm. by apply ap_dom, am_unwrap. Qed.
Lemma ap_decode N c h o : addsP N c h (pdecode o).
Proof. destruct o; [apply ap_ret|apply ap_fail]. Qed.
Lemma ap_unwrap {A} N c h (o : option A) : addsP N c h (punwrap o).
Proof. intros h' r H. destruct o; injection H as <- <-; apply adds_refl. Qed.
Lemma ap_bind {A B} N a b c h (m : PM A) (k : A -> PM B) : (a + b <= c)%nat -> addsP N a h m ->
  (forall h1 x, m h = (h1, POk x) -> (h_next h <= h_next h1)%nat -> addsP N b h1 (k x)) -> addsP N c h (pbind m k).
Proof.
  intros Hc Hm Hk h' r H. unfold pbind in H. destruct (m h) as [h1 [x|e|p|]] eqn:Em; pose proof (Hm _ _ Em) as [G L].
  - eapply (adds_trans N a b); [done|by split|]. eapply Hk; [done|lia|done].
  - injection H as <- <-. split; [done|lia].
  - injection H as <- <-. split; [done|lia].
  - injection H as <- <-. split; [done|lia].
Qed.
Lemma ap_bind0 {A B} N c h (m : PM A) (k : A -> PM B) : addsP N 0 h m ->
  (forall h1 x, m h = (h1, POk x) -> (h_next h <= h_next h1)%nat -> addsP N c h1 (k x)) -> addsP N c h (pbind m k).
Proof. intros Hm Hk. by eapply (ap_bind N 0 c). Qed.
Lemma pdom_inv {A} (m : M A) h h' a : pdom m h = (h', POk a) -> m h = (h', Ok a).
Proof. unfold pdom. destruct (m h) as [h1 [x|e|q|]]; intros [=]; by subst. Qed.
Lemma pdom_unwrap_inv {A} (m : M A) h h' a : pdom_unwrap m h = (h', POk a) -> m h = (h', Ok a).
Proof. intros H. apply pdom_inv in H. unfold err_to_panic in H. destruct (m h) as [h1 [x|e|q|]]; simplify_eq; done. Qed.
Lemma append_result p c h h' i : append_child p c h = (h', Ok i) -> i = c.
Proof. apply y_insert. Qed.
Lemma ap_item N h p (m : M id) (u : M id -> PM id) : makes N h m ->
  (forall h' x, u m h = (h', POk x) -> m h = (h', Ok x)) -> addsP N 1 h (u m) -> addsP N 1 h (dop? n := u m in pdom (append_child p n)).
Proof.
  intros [Hm Hl] Hu Ha. eapply (ap_bind N 1 0); [lia|done|]. intros h1 x Hx _. apply ap_dom, am_append. by eapply Hl, Hu.
Qed.
Lemma ap_comment N h d p t : (N <= h_next h)%nat -> addsP N 1 h (handle_comment d p t).
Proof.
  intros HN. apply ap_bind0; [apply ap_decode|]. intros h1 s _ HL. assert (Hm : makes N h1 (create_comment d s)) by (apply makes_comment; lia).
  apply (ap_item N h1 p _ pdom); [done|by intros h' x H; apply pdom_inv in H|]. by apply ap_dom, Hm.
Qed.
Lemma ap_text N h d p t : (N <= h_next h)%nat -> addsP N 1 h (handle_text d p t).
Proof.
  intros HN. apply ap_bind0; [apply ap_decode|]. intros h1 s _ HL. assert (Hm : makes N h1 (create_text_node d s)) by (apply makes_text; lia).
  apply (ap_item N h1 p _ pdom); [done|by intros h' x H; apply pdom_inv in H|]. by apply ap_dom, Hm.
Qed.
Lemma ap_cdata N h d p t : (N <= h_next h)%nat -> addsP N 1 h (handle_cdata d p t).
Proof.
  intros HN. apply ap_bind0; [apply ap_decode|]. intros h1 s _ HL. assert (Hm : makes N h1 (create_cdata_section d s)) by (apply makes_cdata; lia).
  apply (ap_item N h1 p _ pdom_unwrap); [done|by intros h' x H; apply pdom_unwrap_inv in H|]. by apply ap_dom_unwrap, Hm.
Qed.
Lemma ap_pi N h d p t : (N <= h_next h)%nat -> addsP N 1 h (handle_pi d p t).
Proof.
  intros HN. apply ap_bind0; [apply ap_decode|]. intros h1 s _ HL. destruct (pi_parts s) as [tg v].
  assert (Hm : makes N h1 (create_processing_instruction d tg v)) by (apply makes_pi; lia).
  apply (ap_item N h1 p _ pdom_unwrap); [done|by intros h' x H; apply pdom_unwrap_inv in H|]. by apply ap_dom_unwrap, Hm.
Qed.
Lemma ap_attributes E N d e : (N <= e)%nat -> forall l h, (N <= h_next h)%nat -> addsP N (2 * length l) h (handle_attributes E d e l).
Proof.
  intros He. induction l as [|a l IH]; intros h HN; cbn [handle_attributes]; [apply ap_ret|]. destruct a as [n v| |]; [|intros h' r [= <- <-]; apply adds_refl|apply ap_fail].
  destruct (makes_attribute N h d n v HN) as [G1 G2]. cbn [length]. eapply (ap_bind N 2 (2 * length l)); [lia|by apply ap_dom|]. intros h1 a Ha HL. apply pdom_inv in Ha.
  apply ap_bind0; [apply ap_dom, am_set_attribute; [done|by eapply G2]|]. intros h2 x _ HL2. apply IH. lia.
Qed.
Lemma ap_start E N h d p n l : (N <= h_next h)%nat -> addsP N (1 + 2 * length l) h (handle_start E d p n l).
Proof.
  intros HN. apply ap_bind0; [apply ap_decode|]. intros h1 s _ HL. assert (Hm : makes N h1 (create_element d s)) by (apply makes_element; lia). destruct Hm as [G1 G2].
  eapply (ap_bind N 1 (2 * length l)); [lia|by apply ap_dom_unwrap|]. intros h2 e He HL2. apply pdom_unwrap_inv in He. pose proof (G2 _ _ He) as Hloose.
  apply ap_bind0; [by apply ap_dom, am_append|]. intros h3 e' He' HL3. apply pdom_inv, append_result in He'. subst e'.
  eapply (ap_bind N (2 * length l) 0); [lia|apply ap_attributes; [apply Hloose|lia]|]. intros. apply ap_ret.
Qed.
Lemma ap_decl N h d v e s : addsP N 0 h (handle_decl d v e s).
Proof.
  intros h' r H. unfold handle_decl in H. unfold pbind at 1, pdom at 1, lift at 1 in H. destruct (xml_declaration h d) as [old|?|?|] eqn:Hold; try (injection H as <- <-; apply adds_refl).
  destruct old; [injection H as <- <-; apply adds_refl|]. revert h' r H.
  assert (G : forall h1 x, make_decl v e s h = (h1, x) -> h1 = h).
  { unfold make_decl, pbind, punwrap, pret. intros h1 x. repeat (case_match; simplify_eq); intros; by simplify_eq. }
  apply ap_bind0.
  { intros h1 x Hx. rewrite (G _ _ Hx). apply adds_refl. }
  intros h1 x Hx _. rewrite (G _ _ Hx). apply ap_bind0; [apply ap_unwrap|]. intros h2 V HV _. assert (h2 = h) as -> by (destruct (version_from_str _); by injection HV).
  apply ap_bind0; [apply ap_dom, am_lift|]. intros h3 dd Hd _. apply pdom_inv in Hd. injection Hd as <- _. apply ap_dom. unfold set_xml_declaration.
  apply am_bind_get. intros n Hn. unfold xml_declaration, get_node in Hold. rewrite Hn in Hold. cbn in Hold. destruct (n_ext n) as [| |D dt m o| | | |] eqn:Hx'; try apply am_fail.
  injection Hold as ->. apply am_modify. right. intros y Hy. assert (y = n) as -> by congruence. split; try done; [exists []; by rewrite app_nil_r|]. rewrite Hx'. cbn [n_ext set_ext].
  rewrite <- (app_nil_r m) at 2. constructor. by left.
Qed.

(** ** The loops *)
Lemma costs_cons ev l : costs (ev :: l) = (cost ev + costs l)%nat.
Proof. done. Qed.
Lemma element_adds E d N : forall f evs p h h1 rest r, (N <= h_next h)%nat -> element f E d p evs h = (h1, rest, r) ->
  (length rest <= length evs)%nat /\ exists c, adds N c h h1 /\ (c + costs rest <= costs evs)%nat.
Proof.
  induction f as [|k IH]; intros evs p h h1 rest r HN H; cbn [element] in H; [injection H as <- <- <-; split; [done|]; exists 0%nat; split; [apply adds_refl|lia]|].
  destruct evs as [|ev evs]; [injection H as <- <- <-; split; [done|]; exists 0%nat; split; [apply adds_refl|lia]|]. rewrite costs_cons. cbn [length].
  assert (Stop : forall a, (h, evs, a) = (h1, rest, r) -> (length rest <= S (length evs))%nat /\ exists c, adds N c h h1 /\ (c + costs rest <= cost ev + costs evs)%nat).
  { intros a [= <- <- <-]. split; [lia|]. exists 0%nat. split; [apply adds_refl|lia]. }
  assert (Step : forall {A} (m : PM A), addsP N (cost ev) h m ->
    match m h with (h', POk _) => element k E d p evs h' | (h', PErr e) => (h', evs, PErr e) | (h', PPanic q) => (h', evs, PPanic q) | (h', PDiverge) => (h', evs, PDiverge) end = (h1, rest, r) ->
    (length rest <= S (length evs))%nat /\ exists c, adds N c h h1 /\ (c + costs rest <= cost ev + costs evs)%nat).
  { intros A m Hm Hs. destruct (m h) as [h2 [a|e|q|]] eqn:Em; pose proof (Hm _ _ Em) as G; try (injection Hs as <- <- <-; split; [lia|]; exists (cost ev); by split; [|lia]).
    destruct (IH evs p h2 h1 rest r) as (L & c & Hc & Hle); [destruct G; lia|done|]. split; [lia|]. exists (cost ev + c)%nat. split; [by eapply adds_trans|lia]. }
  destruct ev as [v e s|nm l|nm l| |t|t|t|t| |]; try (by eapply Stop);
    try (eapply Step; [|exact H]; (by apply ap_comment || by apply ap_text || by apply ap_cdata || by apply ap_pi || by apply ap_start)).
  destruct (handle_start E d p nm l h) as [h2 [e|e|q|]] eqn:Es; pose proof (ap_start E N h d p nm l HN _ _ Es) as G; change (1 + 2 * length l)%nat with (cost (EStart nm l)) in G;
    try (injection H as <- <- <-; split; [lia|]; exists (cost (EStart nm l)); by split; [|lia]).
  destruct (element k E d e evs h2) as [[h3 rest3] r3] eqn:E3. destruct (IH evs e h2 h3 rest3 r3) as (L3 & c3 & Hc3 & Hle3); [destruct G; lia|done|].
  assert (G13 : adds N (cost (EStart nm l) + c3) h h3) by (by eapply adds_trans).
  destruct r3; try (injection H as <- <- <-; split; [lia|]; exists (cost (EStart nm l) + c3)%nat; by split; [|lia]).
  destruct (IH rest3 p h3 h1 rest r) as (L4 & c4 & Hc4 & Hle4); [destruct G13; lia|done|]. split; [lia|]. exists (cost (EStart nm l) + c3 + c4)%nat. split; [by eapply adds_trans|lia].
Qed.
Lemma element_shorter E d f evs p h h1 rest r : element f E d p evs h = (h1, rest, r) -> (length rest <= length evs)%nat.
Proof. intros H. apply (element_adds E d 0 f evs p h h1 rest r) in H as [H _]; [done|lia]. Qed.
Lemma loop_adds E d N : forall f evs h h1 r, (N <= h_next h)%nat -> document_loop f E d evs h = (h1, r) -> adds N (costs evs) h h1.
Proof.
  induction f as [|k IH]; intros evs h h1 r HN H; cbn [document_loop] in H; [injection H as <- <-; apply adds_refl|].
  destruct evs as [|ev evs]; [injection H as <- <-; apply adds_refl|]. rewrite costs_cons.
  assert (Wk : forall c h', (c <= cost ev + costs evs)%nat -> adds N c h h' -> adds N (cost ev + costs evs) h h') by (intros c h' Hc [G L]; split; [done|lia]).
  assert (Step : forall {A} (m : PM A), addsP N (cost ev) h m ->
    match m h with (h', POk _) => document_loop k E d evs h' | (h', PErr e) => (h', PErr e) | (h', PPanic q) => (h', PPanic q) | (h', PDiverge) => (h', PDiverge) end = (h1, r) ->
    adds N (cost ev + costs evs) h h1).
  { intros A m Hm Hs. destruct (m h) as [h2 [a|e|q|]] eqn:Em; pose proof (Hm _ _ Em) as G; try (injection Hs as <- <-; by apply (Wk (cost ev)); [lia|]).
    eapply adds_trans; [|exact G|eapply IH; [|exact Hs]]; [lia|destruct G; lia]. }
  destruct ev as [v e s|nm l|nm l| |t|t|t|t| |]; try (injection H as <- <-; apply adds_refl);
    try (eapply Step; [|exact H]; (by apply ap_comment || by apply ap_pi || by apply ap_start || by apply ap_decl)).
  2:{ cbn [cost Nat.add]. by eapply IH. }
  destruct (handle_start E d d nm l h) as [h2 [e|e|q|]] eqn:Es; pose proof (ap_start E N h d d nm l HN _ _ Es) as G; change (1 + 2 * length l)%nat with (cost (EStart nm l)) in G;
    try (injection H as <- <-; by apply (Wk (cost (EStart nm l))); [lia|]).
  destruct (element (S (length evs)) E d e evs h2) as [[h3 rest3] r3] eqn:E3. apply (element_adds E d N) in E3 as (_ & c3 & Hc3 & Hle3); [|destruct G; lia].
  assert (G13 : adds N (cost (EStart nm l) + c3) h h3) by (by eapply adds_trans).
  destruct r3; try (injection H as <- <-; apply (Wk (cost (EStart nm l) + c3)%nat); [lia|done]);
    (eapply (adds_trans N (cost (EStart nm l) + c3) (costs rest3)); [lia|done|]; eapply IH; [|exact H]; destruct G13; lia).
Qed.

(** ** Reading on

    [P h1 x]: [x] is a result of reading [more] inside some elements, from [h1] on; [Q h1 y]: [y] is a
    result of reading [more] to the end. *)
Section more.
  Context (E : env) (d : id) (more : list event).
  Context (P : heap -> heap * list event * pres id -> Prop) (Q : heap -> heap * pres id -> Prop).
  Hypothesis P_start : forall h1 p g, (length more < g)%nat -> P h1 (element g E d p more h1).
  Hypothesis P_next : forall h1 h2 rest x p g, P h1 (h2, rest, POk x) -> (length rest < g)%nat -> P h1 (element g E d p rest h2).
  Hypothesis Q_start : forall h1 g, (length more < g)%nat -> Q h1 (document_loop g E d more h1).
  Hypothesis Q_ok : forall h1 h2 rest x g, P h1 (h2, rest, POk x) -> (length rest < g)%nat -> Q h1 (document_loop g E d rest h2).
  Hypothesis Q_err : forall h1 h2 rest e g, P h1 (h2, rest, PErr e) -> (length rest < g)%nat -> Q h1 (document_loop g E d rest h2).
  Hypothesis Q_panic : forall h1 h2 rest q, P h1 (h2, rest, PPanic q) -> Q h1 (h2, PPanic q).
  Hypothesis Q_diverge : forall h1 h2 rest, P h1 (h2, rest, PDiverge) -> Q h1 (h2, PDiverge).

  Lemma element_more : forall f evs p h h1 rest r f', (length evs < f)%nat -> (length evs + length more < f')%nat ->
    element f E d p evs h = (h1, rest, r) ->
    element f' E d p (evs ++ more) h = (h1, rest ++ more, r) \/
    rest = [] /\ r = PErr PEMalformed /\ P h1 (element f' E d p (evs ++ more) h).
  Proof.
    induction f as [|k IH]; intros evs p h h1 rest r f' Hf Hf' H; [lia|]. destruct f' as [|k']; [lia|].
    destruct evs as [|ev evs].
    { cbn [element] in H. injection H as <- <- <-. right. split; [done|]. split; [done|]. apply P_start. cbn in Hf'. lia. }
    cbn [length] in Hf, Hf'. cbn [element] in H. cbn [app].
    assert (Step : forall {A} (m : PM A),
      match m h with (h', POk _) => element k E d p evs h' | (h', PErr e) => (h', evs, PErr e) | (h', PPanic q) => (h', evs, PPanic q) | (h', PDiverge) => (h', evs, PDiverge) end = (h1, rest, r) ->
      let x := match m h with (h', POk _) => element k' E d p (evs ++ more) h' | (h', PErr e) => (h', evs ++ more, PErr e) | (h', PPanic q) => (h', evs ++ more, PPanic q) | (h', PDiverge) => (h', evs ++ more, PDiverge) end in
      x = (h1, rest ++ more, r) \/ rest = [] /\ r = PErr PEMalformed /\ P h1 x).
    { intros A m Hs. cbn zeta. destruct (m h) as [h2 [a|e|q|]]; try (left; injection Hs as <- <- <-; done). apply (IH evs p h2); [lia|lia|done]. }
    destruct ev as [v e s|nm l|nm l| |t|t|t|t| |]; cbn [element]; try (by apply Step); try (left; injection H as <- <- <-; done).
    destruct (handle_start E d p nm l h) as [h2 [e|e|q|]]; try (left; injection H as <- <- <-; done).
    destruct (element k E d e evs h2) as [[h3 rest3] r3] eqn:E3. pose proof (element_shorter _ _ _ _ _ _ _ _ _ E3) as L3.
    destruct (IH evs e h2 h3 rest3 r3 k' ltac:(lia) ltac:(lia) E3) as [E3'|(-> & -> & HP)].
    - rewrite E3'. destruct r3; try (left; injection H as <- <- <-; done). apply (IH rest3 p h3); [lia|lia|done].
    - injection H as <- <- <-. right. split; [done|]. split; [done|].
      destruct (element k' E d e (evs ++ more) h2) as [[h4 rest4] r4] eqn:E4. pose proof (element_shorter _ _ _ _ _ _ _ _ _ E4) as L4. rewrite app_length in L4.
      destruct r4; try done. eapply P_next; [exact HP|lia].
  Qed.
  Lemma loop_more : forall f evs h h1 r f', (length evs < f)%nat -> (length evs + length more < f')%nat -> document_loop f E d evs h = (h1, r) ->
    match r with POk _ => Q h1 (document_loop f' E d (evs ++ more) h) | _ => document_loop f' E d (evs ++ more) h = (h1, r) end.
  Proof.
    induction f as [|k IH]; intros evs h h1 r f' Hf Hf' H; [lia|]. destruct f' as [|k']; [lia|].
    destruct evs as [|ev evs].
    { cbn [document_loop] in H. injection H as <- <-. apply Q_start. cbn in Hf'. lia. }
    cbn [length] in Hf, Hf'. cbn [document_loop] in H. cbn [app].
    assert (Step : forall {A} (m : PM A),
      match m h with (h', POk _) => document_loop k E d evs h' | (h', PErr e) => (h', PErr e) | (h', PPanic q) => (h', PPanic q) | (h', PDiverge) => (h', PDiverge) end = (h1, r) ->
      let x := match m h with (h', POk _) => document_loop k' E d (evs ++ more) h' | (h', PErr e) => (h', PErr e) | (h', PPanic q) => (h', PPanic q) | (h', PDiverge) => (h', PDiverge) end in
      match r with POk _ => Q h1 x | _ => x = (h1, r) end).
    { intros A m Hs. cbn zeta. destruct (m h) as [h2 [a|e|q|]]; try (injection Hs as <- <-; done). apply (IH evs h2); [lia|lia|done]. }
    destruct ev as [v e s|nm l|nm l| |t|t|t|t| |]; cbn [document_loop]; try (by apply Step); try (injection H as <- <-; done).
    2:{ apply (IH evs h); [lia|lia|done]. }
    destruct (handle_start E d d nm l h) as [h2 [e|e|q|]]; try (injection H as <- <-; done).
    destruct (element (S (length evs)) E d e evs h2) as [[h3 rest3] r3] eqn:E3. pose proof (element_shorter _ _ _ _ _ _ _ _ _ E3) as L3.
    destruct (element_more (S (length evs)) evs e h2 h3 rest3 r3 (S (length (evs ++ more))) ltac:(lia) ltac:(rewrite app_length; lia) E3) as [E3'|(-> & -> & HP)].
    - rewrite E3'. destruct r3; try (injection H as <- <-; done); (apply (IH rest3 h3); [lia|lia|done]).
    - destruct k as [|k]; [lia|]. cbn [document_loop] in H. injection H as <- <-.
      destruct (element (S (length (evs ++ more))) E d e (evs ++ more) h2) as [[h4 rest4] r4] eqn:E4. pose proof (element_shorter _ _ _ _ _ _ _ _ _ E4) as L4. rewrite app_length in L4.
      destruct r4; [eapply Q_ok; [exact HP|lia]|eapply Q_err; [exact HP|lia]|by eapply Q_panic|by eapply Q_diverge].
  Qed.
End more.

(** Reading on adds to what has been read. *)
Lemma loop_more_adds E d more f f' evs h h1 r : (length evs < f)%nat -> (length evs + length more < f')%nat -> document_loop f E d evs h = (h1, r) ->
  match r with POk _ => adds (h_next h1) (costs more) h1 (document_loop f' E d (evs ++ more) h).1 | _ => document_loop f' E d (evs ++ more) h = (h1, r) end.
Proof.
  intros Hf Hf' H.
  apply (loop_more E d more (fun a x => exists c, adds (h_next a) c a x.1.1 /\ (c + costs x.1.2 <= costs more)%nat) (fun a y => adds (h_next a) (costs more) a y.1)) with (f := f); try done.
  - intros a p g _. destruct (element g E d p more a) as [[h2 rest] x] eqn:He. by apply (element_adds E d (h_next a)) in He as (_ & He).
  - intros a h2 rest x p g (c & Hc & Hle) _. cbn [fst snd] in *. destruct (element g E d p rest h2) as [[h3 rest3] r3] eqn:He.
    apply (element_adds E d (h_next a)) in He as (_ & c3 & Hc3 & Hle3); [|destruct Hc; lia]. exists (c + c3)%nat. split; [by eapply adds_trans|]. cbn [fst snd]. lia.
  - intros a g _. destruct (document_loop g E d more a) as [h2 x] eqn:He. by apply (loop_adds E d (h_next a)) in He.
  - intros a h2 rest x g (c & Hc & Hle) _. cbn [fst snd] in *. destruct (document_loop g E d rest h2) as [h3 r3] eqn:He. apply (loop_adds E d (h_next a)) in He; [|destruct Hc; lia]. by eapply adds_trans.
  - intros a h2 rest x g (c & Hc & Hle) _. cbn [fst snd] in *. destruct (document_loop g E d rest h2) as [h3 r3] eqn:He. apply (loop_adds E d (h_next a)) in He; [|destruct Hc; lia]. by eapply adds_trans.
  - intros a h2 rest q (c & [G L] & Hle). cbn [fst snd] in *. split; [done|lia].
  - intros a h2 rest (c & [G L] & Hle). cbn [fst snd] in *. split; [done|lia].
Qed.
(** End tags at the end do nothing. *)
Lemma element_ends E d : forall n p h g, (n < g)%nat -> exists m r, element g E d p (repeat EEnd n) h = (h, repeat EEnd m, r) /\ (m <= n)%nat /\ (r = POk p \/ r = PErr PEMalformed).
Proof. intros n p h g Hg. destruct g as [|g]; [lia|]. destruct n as [|n]; cbn [repeat element]; [exists 0%nat|exists n]; (eexists; split; [reflexivity|]; split; [lia|]; by (left + right)). Qed.
Lemma loop_ends E d : forall n h g, (n < g)%nat -> document_loop g E d (repeat EEnd n) h = (h, POk d).
Proof. induction n as [|n IH]; intros h g Hg; (destruct g as [|g]; [lia|]); cbn [repeat document_loop]; [done|]. apply IH. lia. Qed.
Lemma loop_more_ends E d n f f' evs h h1 x : (length evs < f)%nat -> (length evs + n < f')%nat -> document_loop f E d evs h = (h1, POk x) ->
  document_loop f' E d (evs ++ repeat EEnd n) h = (h1, POk d).
Proof.
  intros Hf Hf' H.
  apply (loop_more E d (repeat EEnd n) (fun a y => exists m, y.1.1 = a /\ y.1.2 = repeat EEnd m /\ ((exists p, y.2 = POk p) \/ y.2 = PErr PEMalformed)) (fun a y => y = (a, POk d))) with (f := f) (r := POk x);
    try done; rewrite ?repeat_length; try done.
  - intros a p g Hg. destruct (element_ends E d n p a g Hg) as (m & r & -> & _ & Hr). exists m. cbn. split; [done|]. split; [done|]. destruct Hr as [-> | ->]; [left; by eexists|by right].
  - intros a h2 rest y p g (m & H1 & H2 & _) Hg. cbn in H1, H2. subst h2 rest. rewrite repeat_length in Hg. destruct (element_ends E d m p a g Hg) as (m' & r & -> & _ & Hr). exists m'. cbn. split; [done|]. split; [done|].
    destruct Hr as [-> | ->]; [left; by eexists|by right].
  - intros a g Hg. by apply loop_ends.
  - intros a h2 rest y g (m & H1 & H2 & _) Hg. cbn in H1, H2. subst h2 rest. rewrite repeat_length in Hg. by apply loop_ends.
  - intros a h2 rest y g (m & H1 & H2 & _) Hg. cbn in H1, H2. subst h2 rest. rewrite repeat_length in Hg. by apply loop_ends.
  - intros a h2 rest q (m & _ & _ & [[p Hp]|Hp]); cbn in Hp; done.
  - intros a h2 rest (m & _ & _ & [[p Hp]|Hp]); cbn in Hp; done.
Qed.
