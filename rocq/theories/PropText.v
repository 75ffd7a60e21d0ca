(** * C01-C06: escaping, line ends, attribute values *)
From Verif Require Import History SpecText ProofText ProofAttr.

(** Used by the examples: one document (node 0), then a text (1), a comment (2), a CDATA section (3)
    and attributes. *)
Definition ex_text_ops : list op :=
  [ OCreateDocument None None None 0%N; OCreateText 0 (lit "a<b & ""c"""); OCreateComment 0 (lit "x > 'y'");
    OCreateCData 0 (lit "<&>"); OCreateAttributeWith 0 (lit "a") (lit "  one  two ");
    OCreateAttributeWith 0 (lit "b") (lit "&#65;&#x42;<"); OCreateAttributeWith 0 (lit "c") (lit "x&amp;y");
    OCreateAttributeWith 0 (lit "d") (lit "&#xD800;") ].
Definition ex_text_heap : heap := default empty_heap (run env0 ex_text_ops empty_heap).
Example ex_text_reachable : reachable ex_text_heap.
Proof. apply run0_reachable with (ops := ex_text_ops). by vm_compute. Qed.

(** ** C01 *)
Theorem C01_escaped_data : forall h i n v,
  h_nodes h !! i = Some n -> (n_type n = NText \/ n_type n = NComment) -> n_value n = Some v ->
  exists d, data h i = Ok (Some d) /\ escaped v d /\ markup_free d /\ decode d = v.
Proof.
  intros h i n v Hn Ht Hv. exists (escape v). unfold data, get_node. rewrite Hn. cbn [rbind]. rewrite Hv.
  split; [|split; [apply escape_escaped|split; [eapply escaped_markup_free, escape_escaped|apply decode_escaped, escape_escaped]]].
  unfold is_type, type_eqb. by destruct Ht as [-> | ->].
Qed.
Print Assumptions C01_escaped_data.
Theorem C01_injective : forall h1 h2 i1 i2 n1 n2 v1 v2 d,
  h_nodes h1 !! i1 = Some n1 -> (n_type n1 = NText \/ n_type n1 = NComment) -> n_value n1 = Some v1 ->
  h_nodes h2 !! i2 = Some n2 -> (n_type n2 = NText \/ n_type n2 = NComment) -> n_value n2 = Some v2 ->
  data h1 i1 = Ok d -> data h2 i2 = Ok d -> v1 = v2.
Proof.
  intros h1 h2 i1 i2 n1 n2 v1 v2 d H1 T1 V1 H2 T2 V2 D1 D2.
  destruct (C01_escaped_data _ _ _ _ H1 T1 V1) as (d1 & E1 & _ & _ & <-).
  destruct (C01_escaped_data _ _ _ _ H2 T2 V2) as (d2 & E2 & _ & _ & <-). congruence.
Qed.
Print Assumptions C01_injective.
Theorem C01_cdata : forall h i n v,
  h_nodes h !! i = Some n -> n_type n = NCData -> n_value n = Some v -> data h i = Ok (Some v).
Proof. intros h i n v Hn Ht Hv. unfold data, get_node. rewrite Hn. cbn. unfold is_type. by rewrite Hv, Ht. Qed.
Print Assumptions C01_cdata.
(** Display of a text is its data, of a comment its data between the comment markers. *)
Theorem C01_display : forall E h i n v d,
  h_nodes h !! i = Some n -> n_value n = Some v -> data h i = Ok (Some d) ->
  (n_type n = NText -> to_string E h i = Ok d) /\
  (n_type n = NComment -> to_string E h i = Ok (lit "<!--" ++ d ++ lit "-->")).
Proof.
  intros E h i n v d Hn Hv Hd. unfold to_string.
  assert (G : get_node h i = Ok n) by (unfold get_node; by rewrite Hn).
  cbn [fmt_node]. rewrite G. cbn [rbind]. split; intros ->; unfold fmt_text, fmt_comment; rewrite Hd; done.
Qed.
Print Assumptions C01_display.
Example C01_example : data ex_text_heap 1 = Ok (Some (lit "a&#60;b &#38; &#34;c&#34;"))
  /\ data ex_text_heap 2 = Ok (Some (lit "x &#62; &#39;y&#39;")) /\ data ex_text_heap 3 = Ok (Some (lit "<&>"))
  /\ decode (lit "a&#60;b &#38; &#34;c&#34;") = lit "a<b & ""c""".
Proof. by vm_compute. Qed.

(** ** C02 *)
Theorem C02_length : forall h i d, data h i = Ok (Some d) -> length_ h i = Ok (blen d).
Proof. intros h i d H. unfold length_. by rewrite H. Qed.
Print Assumptions C02_length.
Theorem C02_no_value : forall h i n, h_nodes h !! i = Some n -> n_value n = None -> length_ h i = Ok 0%N.
Proof. intros h i n Hn Hv. unfold length_, data, get_node. rewrite Hn. cbn. by rewrite Hv. Qed.
Print Assumptions C02_no_value.
Theorem C02_escaped_length : forall h i n v,
  h_nodes h !! i = Some n -> (n_type n = NText \/ n_type n = NComment) -> n_value n = Some v ->
  exists len, length_ h i = Ok len /\ (blen v <= len)%N /\
    (len = blen v <-> forall c, In c v -> ~ special c).
Proof.
  intros h i n v Hn Ht Hv. destruct (C01_escaped_data _ _ _ _ Hn Ht Hv) as (d & Hd & He & _).
  exists (blen d). split; [by apply C02_length|]. destruct (escaped_blen _ _ He) as [H1 H2].
  split; [done|]. rewrite <- List.Forall_forall, <- H2. split; congruence.
Qed.
Print Assumptions C02_escaped_length.
Theorem C02_cdata_length : forall h i n v,
  h_nodes h !! i = Some n -> n_type n = NCData -> n_value n = Some v -> length_ h i = Ok (blen v).
Proof. intros. eapply C02_length, C01_cdata; eauto. Qed.
Print Assumptions C02_cdata_length.
Example C02_example : length_ ex_text_heap 1 = Ok 25%N /\ node_value ex_text_heap 1 = Ok (Some (lit "a<b & ""c"""))
  /\ length_ ex_text_heap 3 = Ok 3%N.
Proof. by vm_compute. Qed.

(** ** C03 *)
Theorem C03_line_ends : forall s t, normalize_eol s = t <-> line_ends_normalised s t.
Proof.
  intros s t. split; [intros <-; apply normalize_eol_spec|]. intros H.
  eapply line_ends_fun; [apply normalize_eol_spec|done].
Qed.
Print Assumptions C03_line_ends.
Theorem C03_no_line_ends : forall s, no_line_end_but_lf (normalize_eol s).
Proof. intros s. eapply line_ends_no, normalize_eol_spec. Qed.
Print Assumptions C03_no_line_ends.
Theorem C03_idempotent : forall s, normalize_eol (normalize_eol s) = normalize_eol s.
Proof. intros s. apply normalize_eol_id, C03_no_line_ends. Qed.
Print Assumptions C03_idempotent.
Theorem C03_not_longer : forall s,
  (length (normalize_eol s) <= length s)%nat /\ (blen (normalize_eol s) <= blen s)%N.
Proof. intros s. eapply line_ends_length, normalize_eol_spec. Qed.
Print Assumptions C03_not_longer.
Theorem C03_unchanged : forall s, no_line_end_but_lf s -> normalize_eol s = s.
Proof. exact normalize_eol_id. Qed.
Print Assumptions C03_unchanged.
Example C03_example : normalize_eol [97; 13; 10; 98; 13; 133; 13; 99; 133; 8232; 10]%N = [97; 10; 98; 10; 10; 99; 10; 10; 10]%N.
Proof. by vm_compute. Qed.

(** ** C04 *)
Theorem C04_plain_value : forall E h a raw, wf_env E -> stored_text h a raw ->
  (forall c, In c raw -> c <> 38%N /\ c <> 37%N) ->
  exists l t d, line_ends_normalised raw l /\ trimmed (map white_to_space l) t /\ escaped t d
    /\ attr_value E h a = Ok (Some d).
Proof.
  intros E h a raw W Hs Hp. exists (normalize_eol raw). eexists. eexists.
  split; [apply normalize_eol_spec|]. split; [apply trim_matches_spec|]. split; [apply escape_escaped|].
  eapply attr_value_expands; [exact W|done|]. apply expands_plain.
  intros c Hc. destruct (line_ends_in _ _ _ (normalize_eol_spec raw) Hc) as [->|Hin]; [done|by apply Hp].
Qed.
Print Assumptions C04_plain_value.
(** The text above is determined by the stored text. *)
Theorem C04_determined : forall raw l l' t t' d d',
  line_ends_normalised raw l -> line_ends_normalised raw l' ->
  trimmed (map white_to_space l) t -> trimmed (map white_to_space l') t' ->
  escaped t d -> escaped t' d' -> d = d'.
Proof.
  intros raw l l' t t' d d' H1 H2 H3 H4 H5 H6. pose proof (line_ends_fun _ _ _ H1 H2). subst.
  pose proof (trimmed_fun _ _ _ H3 H4). subst. by eapply escaped_fun.
Qed.
Print Assumptions C04_determined.
Example C04_example : stored_text ex_text_heap 5 (lit "  one  two ")
  /\ attr_value env0 ex_text_heap 5 = Ok (Some (lit "one  two")).
Proof.
  split; [|by vm_compute]. eexists. exists [lit "  one  two "]. split; [by vm_compute|].
  split; [done|]. split; [|done]. repeat constructor. eexists. split; [by vm_compute|]. left. by split; [left|].
Qed.

(** ** C05 *)
Theorem C05_references_expanded : forall E h a raw l t0 t d, wf_env E -> stored_text h a raw ->
  line_ends_normalised raw l -> expands E l t0 -> trimmed t0 t -> escaped t d ->
  attr_value E h a = Ok (Some d).
Proof.
  intros E h a raw l t0 t d W Hs Hl Hx Ht Hd.
  pose proof (line_ends_fun _ _ _ Hl (normalize_eol_spec raw)). subst.
  rewrite (attr_value_expands E W _ _ _ _ Hs Hx).
  rewrite (trimmed_fun _ _ _ Ht (trim_matches_spec t0)) in Hd.
  by rewrite (escaped_fun _ _ _ Hd (escape_escaped _)).
Qed.
Print Assumptions C05_references_expanded.
Theorem C05_bad_number_panics : forall E h a raw p r, wf_env E -> stored_text h a raw -> raw = p ++ r ->
  (exists ds q, dec_ref E r ds q /\ ~ (Forall ascii_digit ds /\ scalar (number 10 ds)))
  \/ (exists ds q, hex_ref r ds q /\ ~ scalar (number 16 ds)) ->
  exists e, attr_value E h a = Panic e.
Proof.
  intros E h a raw p r W Hs Hr Hb. eapply attr_value_blocked; [done..|].
  eapply bad_anywhere_blocked; [done..|]. by right.
Qed.
Print Assumptions C05_bad_number_panics.
Example C05_example : attr_value env0 ex_text_heap 7 = Ok (Some (lit "AB&#60;")) /\ attr_value env0 ex_text_heap 11 = Panic PUnwrap
  /\ expands env0 (lit "&#65;&#x42;<") (lit "AB<").
Proof.
  split; [by vm_compute|]. split; [by vm_compute|].
  apply (ex_dec env0 (lit "&#65;&#x42;<") (lit "65") (lit "&#x42;<") (lit "B<")).
  - split; [done|]. split; [done|]. repeat constructor.
  - constructor; [done|constructor; [done|constructor]].
  - apply char_try_from_spec. by vm_compute.
  - apply (ex_hex env0 (lit "&#x42;<") (lit "42") (lit "<") (lit "<")).
    + split; [done|]. split; [done|]. constructor; [left; done|constructor; [left; done|constructor]].
    + apply char_try_from_spec. by vm_compute.
    + apply (ex_plain env0 60%N [] []); [unfold white; intros [H|[H|H]]; discriminate| |constructor].
      apply no_ref_other; discriminate.
Qed.

(** ** C06 *)
Theorem C06_named_reference_panics : forall E h a raw p r, wf_env E -> stored_text h a raw ->
  raw = p ++ r -> named_ref E r -> exists e, attr_value E h a = Panic e.
Proof.
  intros E h a raw p r W Hs Hr Hb. eapply attr_value_blocked; [done..|].
  eapply bad_anywhere_blocked; [done..|]. by left.
Qed.
Print Assumptions C06_named_reference_panics.
Theorem C06_otherwise_returns : forall E h a raw, wf_env E -> stored_text h a raw ->
  (forall p r, raw = p ++ r -> ~ bad_ref E r) -> exists v, attr_value E h a = Ok (Some v).
Proof.
  intros E h a raw W Hs Hb. destruct (not_bad_expands E W raw Hb) as [t Ht].
  rewrite (attr_value_expands E W _ _ _ _ Hs Ht). eauto.
Qed.
Print Assumptions C06_otherwise_returns.
Example C06_example : attr_value env0 ex_text_heap 9 = Panic PExplicit /\ named_ref env0 (lit "&amp;y").
Proof.
  split; [by vm_compute|]. exists 38%N, 97%N, (lit "mp"), (lit "y"). split; [done|]. split; [by left|]. split; [by left|].
  repeat constructor; by left.
Qed.
