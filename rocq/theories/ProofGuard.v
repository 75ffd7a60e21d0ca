(** * ProofGuard: more guards held can only make a call panic *)
From Coq Require Import Lia.
From Verif Require Import SpecGuard ProofBorrow ProofName ProofInv.

(** ** Refusal *)
Definition rref {A} (a b : res A) : Prop := a = b \/ a = Panic PBorrow.
Lemma rref_bind {A C} (a b : res A) (k l : A -> res C) : rref a b -> (forall x, rref (k x) (l x)) -> rref (rbind a k) (rbind b l).
Proof. intros [->| ->] H; [destruct b; cbn; [apply H|by left..]|by right]. Qed.
Lemma scan_rref E (f1 f2 : token -> res str) : (forall tok, rref (f1 tok) (f2 tok)) -> forall s k, rref (scan E f1 s k) (scan E f2 s k).
Proof.
  intros Hf. induction s as [|c s IH]; intros k; [by left|]. cbn [scan]. destruct k as [|k]; [|apply IH].
  destruct (find_token E (c :: s)) as [[tok n]|].
  - apply rref_bind; [apply Hf|]. intros r. apply rref_bind; [apply IH|]. intros. by left.
  - apply rref_bind; [apply IH|]. intros. by left.
Qed.
Lemma normalize_rref E r1 r2 : (forall e, rref (r1 e) (r2 e)) -> forall k cd v, rref (normalize_attribute_value k E r1 cd v) (normalize_attribute_value k E r2 cd v).
Proof.
  intros Hr. induction k as [|k IH]; intros cd v; [by left|]. cbn [normalize_attribute_value]. apply rref_bind; [|intros; by left]. apply scan_rref. intros [m|m|m|]; [|by left..].
  apply rref_bind; [apply Hr|]. intros [x|]; [apply IH|by left].
Qed.

Definition tame {A} (g : guards) (m : B A) : Prop := forall G h, refuses (m (g ++ G) h) (m g h).
Lemma tame_ret {A} g (a : A) : tame g (b_ret a). Proof. by left. Qed.
Lemma tame_fail {A} g e : tame g (b_fail (A := A) e). Proof. by left. Qed.
Lemma tame_panic {A} g p : tame g (b_panic (A := A) p). Proof. by left. Qed.
Lemma tame_free {A} g (m : M A) : tame g (b_free m). Proof. by left. Qed.
Lemma tame_pure {A} g (r : res A) : tame g (b_pure r). Proof. by left. Qed.
Lemma tame_upgrade g o : tame g (b_upgrade o). Proof. by left. Qed.
Lemma tame_diverge {A} g : tame (A := A) g (fun _ h => (h, Diverge)). Proof. by left. Qed.
Lemma tame_bind {A C} g (m : B A) (k : A -> B C) : tame g m -> (forall a, tame g (k a)) -> tame g (b_bind m k).
Proof.
  intros Hm Hk G h. unfold b_bind, bind. destruct (Hm G h) as [->|[h1 ->]]; [|right; by eexists]. destruct (m g h) as [h1 [a|e|p|]]; [apply Hk|by left..].
Qed.
Lemma tame_borrow {A} g i (k : node -> B A) : (forall n, tame ((i, false) :: g) (k n)) -> tame g (borrow i k).
Proof.
  intros Hk G h. unfold borrow. destruct (h_nodes h !! i) as [n|]; [|by left]. destruct (decide ((i, true) ∈ g ++ G)) as [H|H].
  - rewrite (bool_decide_true _ H). right. by eexists.
  - rewrite !bool_decide_false; [apply (Hk n G h)|set_solver..].
Qed.
Lemma tame_borrow_mut {A} g i (k : node -> B A) : (forall n, tame ((i, true) :: g) (k n)) -> tame g (borrow_mut i k).
Proof.
  intros Hk G h. unfold borrow_mut. destruct (h_nodes h !! i) as [n|]; [|by left].
  destruct (decide ((i, true) ∈ g ++ G \/ (i, false) ∈ g ++ G)) as [H|H].
  - rewrite (bool_decide_true _ H). right. by eexists.
  - rewrite !bool_decide_false; [apply (Hk n G h)|set_solver..].
Qed.
Lemma tame_write g i f : (i, true) ∈ g -> tame g (write i f).
Proof. intros Hi G h. left. rewrite !write_ok; [done|done|set_solver]. Qed.
Lemma tame_err {A} g p (m : B A) : tame g m -> tame g (b_err_to_panic p m).
Proof.
  intros Hm G h. unfold b_err_to_panic, err_to_panic. destruct (Hm G h) as [->|[h1 ->]]; [by left|]. right. by eexists.
Qed.
Lemma tame_at {A} g (f : heap -> B A) : (forall h, tame g (f h)) -> tame g (fun g h => f h g h).
Proof. intros H G h. apply H. Qed.
Create HintDb tm discriminated.
Ltac tm := intros; repeat first
  [ progress intros | solve [auto with tm] | apply tame_ret | apply tame_fail | apply tame_panic | apply tame_free | apply tame_pure | apply tame_upgrade | apply tame_diverge
  | apply tame_bind | apply tame_borrow | apply tame_borrow_mut | apply tame_write; set_solver | apply tame_err
  | progress cbv zeta | match goal with |- tame _ (match ?x with _ => _ end) => destruct x end ].
Lemma tame_map {A C} g (f : A -> B C) : (forall x, tame g (f x)) -> forall l, tame g (b_map f l).
Proof. intros Hf. induction l; cbn [b_map]; tm. Qed.
Lemma tame_iter {A} g (f : A -> B unit) : (forall x, tame g (f x)) -> forall l, tame g (b_iter f l).
Proof. intros Hf. induction l; cbn [b_iter]; tm. Qed.

Section t.
  Lemma t_node_name g i : tame g (b_node_name i). Proof. unfold b_node_name. tm. Qed.
  Lemma t_node_value g i : tame g (b_node_value i). Proof. unfold b_node_value. tm. Qed.
  Lemma t_node_type g i : tame g (b_node_type i). Proof. unfold b_node_type. tm. Qed.
  Lemma t_child_nodes g i : tame g (b_child_nodes i). Proof. unfold b_child_nodes. tm. Qed.
  Lemma t_is g t i : tame g (b_is t i). Proof. unfold b_is. tm. Qed.
  Hint Resolve t_node_name t_node_value t_node_type t_child_nodes t_is : tm.
  Lemma t_has_child_nodes g i : tame g (b_has_child_nodes i). Proof. unfold b_has_child_nodes. tm. Qed.
  Lemma t_as_unwrap g t i : tame g (b_as_unwrap t i). Proof. unfold b_as_unwrap. tm. Qed.
  Lemma t_owner_document g i : tame g (b_owner_document i). Proof. unfold b_owner_document. tm. Qed.
  Lemma t_parent_node g i : tame g (b_parent_node i). Proof. unfold b_parent_node. tm. Qed.
  Lemma t_sibling g p i : tame g (b_sibling p i). Proof. unfold b_sibling. tm. Qed.
  Lemma t_previous g i : tame g (b_previous_sibling i). Proof. apply t_sibling. Qed.
  Lemma t_next g i : tame g (b_next_sibling i). Proof. apply t_sibling. Qed.
  Lemma t_data g i : tame g (b_data i). Proof. unfold b_data. tm. Qed.
  Hint Resolve t_has_child_nodes t_as_unwrap t_owner_document t_parent_node t_previous t_next t_data : tm.
  Lemma t_length g i : tame g (b_length i). Proof. unfold b_length. tm. Qed.
  Lemma t_substring g E i o c : tame g (b_substring_data E i o c). Proof. unfold b_substring_data. tm. Qed.
  Lemma t_set_node_value g i v : tame g (b_set_node_value i v). Proof. unfold b_set_node_value. tm. Qed.
  Lemma t_append_data g i x : tame g (b_append_data i x). Proof. unfold b_append_data. tm. Qed.
  Lemma t_replace_data g E i o c x : tame g (b_replace_data E i o c x). Proof. unfold b_replace_data. tm. Qed.
  Hint Resolve t_length t_substring t_set_node_value t_append_data t_replace_data : tm.
  Lemma t_insert_data g E i o x : tame g (b_insert_data E i o x). Proof. unfold b_insert_data. tm. Qed.
  Lemma t_delete_data g E i o c : tame g (b_delete_data E i o c). Proof. unfold b_delete_data. tm. Qed.
  Lemma t_is_child_allowed g p c : tame g (b_is_child_allowed p c). Proof. unfold b_is_child_allowed. tm. Qed.
  Lemma t_check g p c : tame g (b_check_same_document p c). Proof. unfold b_check_same_document. tm. Qed.
  Lemma t_remove_child g p c : tame g (b_remove_child p c). Proof. unfold b_remove_child. tm. Qed.
  Lemma t_insert_or_append g p c k : tame g (b_insert_or_append p c k). Proof. unfold b_insert_or_append. tm. Qed.
  Lemma t_any_element g l : tame g (b_any_element l). Proof. induction l; cbn [b_any_element]; tm. Qed.
  Hint Resolve t_insert_data t_delete_data t_is_child_allowed t_check t_remove_child t_insert_or_append t_any_element : tm.
  Lemma t_insert_all g p l : forall k n, tame g (b_insert_all p l k n). Proof. induction l; cbn [b_insert_all]; tm. Qed.
  Hint Resolve t_insert_all : tm.
  Lemma t_insert_before g p c r : tame g (b_insert_before p c r). Proof. unfold b_insert_before. tm. Qed.
  Lemma t_append_child g p c : tame g (b_append_child p c). Proof. apply t_insert_before. Qed.
  Hint Resolve t_insert_before t_append_child : tm.
  Lemma t_replace_child g p c o : tame g (b_replace_child p c o). Proof. unfold b_replace_child. tm. Qed.
  Lemma t_clone_rec d : forall k i g, tame g (b_clone_rec k d i).
  Proof. induction k as [|k IH]; intros i g; [tm|]. change (b_clone_rec (S k) d i) with (borrow i (fun n => b_bind (if d then b_map (b_clone_rec k d) (n_children n) else b_ret []) (fun c => b_free (allocM (mkNode (n_type n) (n_name n) (n_value n) None (n_owner n) c (n_ext n)))))). tm. apply tame_map. intros. apply IH. Qed.
  Lemma t_clone g d i : tame g (b_clone_node d i). Proof. apply (tame_at g (fun h => b_clone_rec (walk_fuel h) d i)). intros. apply t_clone_rec. Qed.
  Lemma t_normalize_step g p c : tame g (b_normalize_step p c). Proof. unfold b_normalize_step. tm. Qed.
  Lemma t_normalize g p : tame g (b_normalize p). Proof. unfold b_normalize. tm. apply tame_iter. intros. apply t_normalize_step. Qed.
  Lemma t_split g E i o : tame g (b_split E i o). Proof. unfold b_split. tm. Qed.
  Lemma t_doc_type g i : tame g (b_doc_type i). Proof. unfold b_doc_type. tm. Qed.
  Hint Resolve t_doc_type : tm.
  Lemma t_resolve g i e : tame g (b_resolve i e). Proof. unfold b_resolve. tm. Qed.
  Lemma t_attr_text g l : tame g (b_attr_text l). Proof. induction l; cbn [b_attr_text]; tm. Qed.
  Lemma t_attr_value g E i : tame g (b_attr_value E i).
  Proof.
    unfold b_attr_value. tm; [apply t_attr_text|]. intros G h. unfold lift.
    match goal with |- refuses (h, ?x) (h, ?y) => assert (H : rref x y); [|destruct H as [->| ->]; [by left|right; by eexists]] end.
    apply normalize_rref. intros e. destruct (t_resolve g i e G h) as [->|[h1 ->]]; [by left|by right].
  Qed.
  Lemma t_attr_unset g i : tame g (b_attr_unset_value i). Proof. unfold b_attr_unset_value. tm. Qed.
  Hint Resolve t_attr_value t_attr_unset : tm.
  Lemma t_attr_set g i v : tame g (b_attr_set_value i v). Proof. unfold b_attr_set_value. tm. Qed.
  Lemma t_add_namespaces g i : tame g (b_add_namespaces i). Proof. unfold b_add_namespaces. tm. Qed.
  Hint Resolve t_add_namespaces : tm.
  Lemma t_insert_mapping g i p u : tame g (b_insert_mapping i p u). Proof. unfold b_insert_mapping. tm. Qed.
  Lemma t_get_attribute_node g E i n : tame g (b_get_attribute_node E i n). Proof. unfold b_get_attribute_node. tm. Qed.
  Lemma t_get_attribute_node_ns g E i u n : tame g (b_get_attribute_node_ns E i u n). Proof. unfold b_get_attribute_node_ns. tm. Qed.
  Hint Resolve t_insert_mapping t_get_attribute_node t_get_attribute_node_ns : tm.
  Lemma t_set_attribute_node g E e a : tame g (b_set_attribute_node E e a). Proof. unfold b_set_attribute_node. tm. Qed.
  Hint Resolve t_set_attribute_node : tm.
  Lemma t_set_new g E e n v : tame g (b_set_new_attribute E e n v). Proof. unfold b_set_new_attribute. tm. Qed.
  Hint Resolve t_set_new : tm.
  Lemma t_set_attribute g E e n v : tame g (b_set_attribute E e n v). Proof. unfold b_set_attribute. tm. Qed.
  Lemma t_set_attribute_ns g E e u n v : tame g (b_set_attribute_ns E e u n v). Proof. unfold b_set_attribute_ns. tm. Qed.
  Lemma t_remove_attribute_node g e a : tame g (b_remove_attribute_node e a). Proof. unfold b_remove_attribute_node. tm. Qed.
  Hint Resolve t_remove_attribute_node : tm.
  Lemma t_remove_attribute g E e n : tame g (b_remove_attribute E e n). Proof. unfold b_remove_attribute. tm. Qed.
  Lemma t_remove_attribute_ns g E e u n : tame g (b_remove_attribute_ns E e u n). Proof. unfold b_remove_attribute_ns. tm. Qed.
  Lemma t_create_document g u q t o : tame g (b_create_document_with_options u q t o). Proof. unfold b_create_document_with_options. tm. Qed.
  Lemma t_set_decl g i x : tame g (b_set_xml_declaration i x). Proof. unfold b_set_xml_declaration. tm. Qed.
  Lemma t_xml_declaration g i : tame g (b_xml_declaration i). Proof. unfold b_xml_declaration. tm. Qed.
  Hint Resolve t_replace_child t_clone t_normalize t_split t_attr_set t_set_attribute t_set_attribute_ns t_remove_attribute t_remove_attribute_ns t_create_document t_set_decl t_xml_declaration : tm.
  Lemma t_exec g E o : tame g (b_exec E o).
  Proof. destruct o; cbn [b_exec]; unfold b_out; tm; by left. Qed.

  (** Queries *)
  Lemma t_get {A} g (f : node -> A) i : tame g (b_get f i). Proof. unfold b_get. tm. Qed.
  Lemma t_handle g i : tame g (b_handle i). Proof. unfold b_handle. tm. Qed.
  Hint Resolve t_get t_handle : tm.
  Lemma t_is_trait g T i : tame g (b_is_trait T i). Proof. destruct T; cbn [b_is_trait]; unfold b_is_f, b_is_char_data; tm. Qed.
  Lemma t_as_char_data g i : tame g (b_as_char_data i). Proof. unfold b_as_char_data. tm. Qed.
  Lemma t_as_f g t i : tame g (b_as_f t i). Proof. unfold b_as_f, b_is_f. tm. Qed.
  Hint Resolve t_as_char_data t_as_f : tm.
  Lemma t_as_trait g T i : tame g (b_as_trait T i). Proof. destruct T; cbn [b_as_trait]; tm. Qed.
  Lemma t_attributes g i : tame g (b_attributes i). Proof. unfold b_attributes. tm. Qed.
  Hint Resolve t_is_trait t_as_trait t_attributes : tm.
  Lemma t_search p : forall k i g, tame g (b_search k p i).
  Proof. induction k as [|k IH]; intros i g; [tm|]. cbn [b_search]. tm. apply tame_map. tm. Qed.
  Lemma t_by_tag g i t : tame g (b_by_tag i t). Proof. apply (tame_at g (fun h => b_search (walk_fuel h) _ i)). intros. apply t_search. Qed.
  Lemma t_by_tag_ns g i u l : tame g (b_by_tag_ns i u l). Proof. apply (tame_at g (fun h => b_search (walk_fuel h) _ i)). intros. apply t_search. Qed.
  Lemma t_value_of g E o : tame g (b_value_of E o). Proof. unfold b_value_of. tm. Qed.
  Lemma t_get_namespace g i p : tame g (b_get_namespace i p). Proof. unfold b_get_namespace. tm. Qed.
  Lemma t_get_prefix g E i u : tame g (b_get_prefix E i u). Proof. unfold b_get_prefix. tm. Qed.
  Hint Resolve t_by_tag t_by_tag_ns t_value_of t_get_namespace t_get_prefix : tm.
  Lemma t_resolve_namespace_rec p : forall k i g, tame g (b_resolve_namespace_rec k i p).
  Proof. induction k as [|k IH]; intros i g; [tm|]. cbn [b_resolve_namespace_rec]. tm. Qed.
  Lemma t_resolve_prefix_rec E u : forall k i g, tame g (b_resolve_prefix_rec k E i u).
  Proof. induction k as [|k IH]; intros i g; [tm|]. cbn [b_resolve_prefix_rec]. tm. Qed.
  Lemma t_resolve_namespace g i p : tame g (b_resolve_namespace i p). Proof. apply (tame_at g (fun h => b_resolve_namespace_rec (walk_fuel h) i p)). intros. apply t_resolve_namespace_rec. Qed.
  Lemma t_resolve_prefix g E i u : tame g (b_resolve_prefix E i u). Proof. apply (tame_at g (fun h => b_resolve_prefix_rec (walk_fuel h) E i u)). intros. apply t_resolve_prefix_rec. Qed.
  Lemma t_fmt_list {A} g (f : A -> B str) : (forall x, tame g (f x)) -> forall l, tame g (b_fmt_list f l).
  Proof. intros Hf l. unfold b_fmt_list. tm. by apply tame_map. Qed.
  Lemma t_fmt_data g f i : tame g (b_fmt_data f i). Proof. unfold b_fmt_data. tm. Qed.
  Hint Resolve t_fmt_data : tm.
  #[local] Opaque b_fmt_list.
  Lemma t_fmt_node E : forall k i g, tame g (b_fmt_node k E i).
  Proof.
    induction k as [|k IH]; intros i g; [tm|]. cbn [b_fmt_node]. unfold b_dt_fields. tm;
      apply t_fmt_list; intros; tm.
  Qed.
  #[local] Transparent b_fmt_list.
  Lemma t_to_string g E i : tame g (b_to_string E i). Proof. apply (tame_at g (fun h => b_fmt_node (S (walk_fuel h)) E i)). intros. apply t_fmt_node. Qed.
  Hint Resolve t_resolve_namespace t_resolve_prefix t_to_string : tm.
  Lemma t_ask g E q : tame g (b_ask E q).
  Proof.
    destruct q; cbn [b_ask]; unfold b_ans, b_has_attributes, b_name_part, b_owner_element, b_document_element, b_implementation, b_get_element_by_id, b_on_root,
      b_get_attribute, b_get_attribute_ns, b_has_attribute, b_has_attribute_ns, b_has_attribute_in, b_contains_mapping, b_contains_mapped, b_document_element; tm.
  Qed.
End t.
