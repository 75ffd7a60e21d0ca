(** * C79: codes and texts *)
From Coq Require Import Lia.
From Verif Require Import CodeModel.

(** ** The constants of the DOM Level 2 recommendation *)
Definition dom_exception_codes : list (error * N) :=
  [(IndexSize, 1); (StringSize, 2); (HierarchyRequest, 3); (WrongDocument, 4); (InvalidCharacter, 5); (NoDataAllowed, 6);
   (NoModificationAllowed, 7); (NotFound, 8); (NotSupported, 9); (InUseAttribute, 10); (InvalidState, 11); (Syntax, 12);
   (InvalidModification, 13); (Namespace, 14); (InvalidAccess, 15)]%N.
Definition dom_node_types : list (node_type * N) :=
  [(NElement, 1); (NAttribute, 2); (NText, 3); (NCData, 4); (NEntityReference, 5); (NEntity, 6); (NProcessingInstruction, 7);
   (NComment, 8); (NDocument, 9); (NDocumentType, 10); (NDocumentFragment, 11); (NNotation, 12)]%N.
Theorem C79_error_codes : forall e c, error_code e = Some c <-> In (e, c) dom_exception_codes.
Proof. intros e c. destruct e; vm_compute error_code; (split; [intros [= <-]; cbn; tauto|]); cbn; intros H; repeat (destruct H as [H|H]; [by inversion H|]); done. Qed.
Print Assumptions C79_error_codes.
Theorem C79_node_types : forall t c, type_code t = Some c <-> In (t, c) dom_node_types.
Proof. intros e c. destruct e; vm_compute type_code; (split; [intros [= <-]; cbn; tauto|]); cbn; intros H; repeat (destruct H as [H|H]; [by inversion H|]); done. Qed.
Print Assumptions C79_node_types.
(** A code says which error or type it is. *)
Theorem C79_codes_determine : (forall e e', error_code e = error_code e' -> e = e') /\ forall t t', type_code t = type_code t' -> t = t'.
Proof. split; intros [] []; vm_compute; done. Qed.
Print Assumptions C79_codes_determine.

(** ** A text says which error it is *)
Theorem C79_messages : forall e e', error_to_string e = error_to_string e' -> e = e'.
Proof. intros [] []; vm_compute; done. Qed.
Print Assumptions C79_messages.
Theorem C79_parser_messages : forall q e e', perror_to_string q e = perror_to_string q e' -> e = e'.
Proof.
  intros q [| |e|] [| |e'|] H; try done. f_equal. apply C79_messages. by apply app_inv_head in H.
Qed.
Print Assumptions C79_parser_messages.

(** ** The binary format *)
Fixpoint value_from (v : N) (s : str) : N := match s with [] => v | c :: t => value_from (2 * v + (c - D0)) t end.
Definition binary_value : str -> N := value_from 0.
Definition binary_digit (c : N) : Prop := c = D0 \/ c = D1.
Lemma value_app s t v : value_from v (s ++ t) = value_from (value_from v s) t.
Proof. revert v. induction s as [|c s IH]; intros v; [done|]. cbn. apply IH. Qed.
Lemma pos_binary_app p acc : pos_binary p acc = pos_binary p [] ++ acc.
Proof. revert acc. induction p as [p IH|p IH|]; intros acc; cbn [pos_binary]; [rewrite IH, (IH [D1])|rewrite IH, (IH [D0])|done]; by rewrite <- app_assoc. Qed.
Lemma pos_binary_value p : value_from 0 (pos_binary p []) = Npos p.
Proof. induction p as [p IH|p IH|]; [| |done]; cbn [pos_binary]; rewrite pos_binary_app, value_app, IH; unfold D0, D1; cbn; lia. Qed.
Lemma pos_binary_digits p : Forall binary_digit (pos_binary p []).
Proof. induction p as [p IH|p IH|]; cbn [pos_binary]; [rewrite pos_binary_app; apply Forall_app; split; [done|]..|]; (constructor; [unfold binary_digit; auto|constructor]). Qed.
Lemma pos_binary_length p k : (Npos p < 2 ^ N.of_nat k)%N -> (length (pos_binary p []) <= k)%nat.
Proof.
  revert k. induction p as [p IH|p IH|]; intros k Hk; (destruct k as [|k]; [cbn in Hk; lia|]); rewrite Nat2N.inj_succ, N.pow_succ_r' in Hk; cbn [pos_binary].
  - rewrite pos_binary_app, app_length. cbn. specialize (IH k). lia. - rewrite pos_binary_app, app_length. cbn. specialize (IH k). lia. - cbn. lia.
Qed.
Lemma value_zeros k s : value_from 0 (replicate k D0 ++ s) = value_from 0 s.
Proof. induction k as [|k IH]; [done|]. cbn. exact IH. Qed.
Lemma binary_pad o : (o < 256)%N -> let s := pad_zeros 8 (binary o) in length s = 8%nat /\ Forall binary_digit s /\ binary_value s = o.
Proof.
  intros Ho s. subst s. unfold pad_zeros. assert (Hl : (length (binary o) <= 8)%nat) by (destruct o; [cbn; lia|]; by apply pos_binary_length).
  split; [rewrite app_length, replicate_length; lia|]. split.
  - apply Forall_app. split; [apply Forall_replicate; by left|]. destruct o; [repeat constructor|apply pos_binary_digits].
  - unfold binary_value. rewrite value_zeros. destruct o; [done|apply pos_binary_value].
Qed.
(** Eight binary digits that denote the options, after [0b] in the alternate form. *)
Theorem C79_binary : forall o, (o < 256)%N -> exists s, options_binary false o = s /\ options_binary true o = lit "0b" ++ s /\
  length s = 8%nat /\ Forall binary_digit s /\ binary_value s = o.
Proof. intros o Ho. exists (pad_zeros 8 (binary o)). split; [done|]. split; [done|]. by apply binary_pad. Qed.
Print Assumptions C79_binary.
Theorem C79_binary_determines : forall a o o', (o < 256)%N -> (o' < 256)%N -> options_binary a o = options_binary a o' -> o = o'.
Proof.
  intros a o o' Ho Ho' H. destruct (C79_binary o Ho) as (s & H1 & H2 & _ & _ & <-). destruct (C79_binary o' Ho') as (s' & H1' & H2' & _ & _ & <-).
  destruct a; [rewrite H2, H2' in H; by apply app_inv_head in H as ->|rewrite H1, H1' in H; by subst].
Qed.
Print Assumptions C79_binary_determines.
(** The display form says which of the three flags are set, and nothing else. *)
Theorem C79_display : forall o o', options_to_string o = options_to_string o' <->
  has_assume_ids o = has_assume_ids o' /\ has_parse_entities o = has_parse_entities o' /\ has_add_namespaces o = has_add_namespaces o'.
Proof.
  intros o o'. unfold options_to_string. destruct (has_assume_ids o), (has_parse_entities o), (has_add_namespaces o), (has_assume_ids o'), (has_parse_entities o'), (has_add_namespaces o');
    (split; [intros H; try (by vm_compute in H); done|]); intros (? & ? & ?); done.
Qed.
Print Assumptions C79_display.

(** ** NamespacePrefix *)
Theorem C79_prefix : forall p, (prefix_is_none p = true <-> p = PfxNone) /\ (prefix_is_default p = true <-> p = PfxDefault) /\
  (forall s, prefix_some p = Some s <-> p = new_some s) /\ (prefix_is_some p = true <-> exists s, prefix_some p = Some s).
Proof.
  intros p. unfold new_some. destruct p; cbn; split_and!; try (split; [done|]; intros H; by try destruct H); try (intros; split; congruence). split; [by eexists|done].
Qed.
Print Assumptions C79_prefix.

Example C79_examples : options_binary false 5%N = lit "00000101" /\ options_binary true 6%N = lit "0b00000110" /\ (5 < 256)%N /\ binary_value (lit "00000101") = 5%N /\
  options_to_string 7%N = lit "ProcessingOptions {AssumeIDs, ParseEntities, AddNamespaces}" /\
  perror_to_string [] (PEDom NotFound) = lit "DOM error: An attempt is made to reference a node in a context where it does not exist" /\ error_code Syntax = Some 12%N /\
  prefix_some (new_some (lit "p")) = Some (lit "p") /\ options_to_string 8%N = options_to_string 0%N.
Proof. split_and!; by vm_compute. Qed.
(** [InvalidCharacter] of the parser and of the DOM have different texts. *)
Example C79_two_texts : perror_to_string [] PEInvalidCharacter <> perror_to_string [] (PEDom InvalidCharacter). Proof. by vm_compute. Qed.
