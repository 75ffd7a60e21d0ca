(** * Borrow: the mutators again, with the dynamic borrow checks of [RefCell]

    In [DomOps] a node is read and written directly.  In Rust every access goes through a guard,
    obtained by [RcRefCell::borrow] or [borrow_mut] (src/shared/rc_cell.rs 65-71), and held until the end
    of a scope.  [borrow] panics while a mutable guard to the node is held, [borrow_mut] while any guard
    is.  Here each function is written out with its guards: where they are taken, in which order, and
    how long they are held.  All of them are released in the reverse order, so the guards held at a point
    of the execution are an argument of the computation. *)
From Verif Require Export History.

(** The guards held: the node, and whether the guard is mutable. *)
Definition guards := list (id * bool).
Definition B (A : Type) := guards -> M A.

Definition b_ret {A} (a : A) : B A := fun _ => ret a.
Definition b_fail {A} (e : error) : B A := fun _ => fail e.
Definition b_panic {A} (p : panic) : B A := fun _ => panic_ p.
Definition b_bind {A C} (m : B A) (k : A -> B C) : B C := fun g => bind (m g) (fun a => k a g).
Notation "'dob?' x ':=' m 'in' k" := (b_bind m (fun x => k)) (at level 200, x pattern, right associativity).
(** A computation that takes no guard: on values already read, on weak references, or creating a node. *)
Definition b_free {A} (m : M A) : B A := fun _ => m.
Definition b_pure {A} (r : res A) : B A := fun _ => lift (fun _ => r).
Definition b_upgrade (w : option id) : B (option id) := fun _ => lift (fun h => Ok (upgrade h w)).

(** [let r = i.borrow(); k]: the guard is held while [k] runs. *)
Definition borrow {A} (i : id) (k : node -> B A) : B A := fun g h =>
  match h_nodes h !! i with
  | None => (h, Panic PNoHandle)
  | Some n => if bool_decide ((i, true) ∈ g) then (h, Panic PBorrow) else k n ((i, false) :: g) h
  end.
(** [let mut r = i.borrow_mut(); k] *)
Definition borrow_mut {A} (i : id) (k : node -> B A) : B A := fun g h =>
  match h_nodes h !! i with
  | None => (h, Panic PNoHandle)
  | Some n => if bool_decide ((i, true) ∈ g \/ (i, false) ∈ g) then (h, Panic PBorrow) else k n ((i, true) :: g) h
  end.
(** An assignment through a mutable guard that is held. *)
Definition write (i : id) (f : node -> node) : B unit := fun g h =>
  if bool_decide ((i, true) ∈ g) then modifyM i f h else (h, Panic PBorrow).

Fixpoint b_iter {A} (f : A -> B unit) (l : list A) : B unit :=
  match l with [] => b_ret tt | x :: t => dob? _ := f x in b_iter f t end.
Fixpoint b_map {A C} (f : A -> B C) (l : list A) : B (list C) :=
  match l with [] => b_ret [] | x :: t => dob? y := f x in dob? ys := b_map f t in b_ret (y :: ys) end.
Definition b_err_to_panic {A} (p : panic) (m : B A) : B A := fun g => err_to_panic p (m g).

(** ** Reads (trait_impls.rs 785-915, convert.rs) *)
Definition b_node_name (i : id) : B Name := borrow i (fun n => b_ret (n_name n)). (* 785-788 *)
Definition b_node_value (i : id) : B (option str) := borrow i (fun n => b_ret (n_value n)). (* 790-793 *)
Definition b_node_type (i : id) : B node_type := borrow i (fun n => b_ret (n_type n)). (* 807-810 *)
Definition b_child_nodes (i : id) : B (list id) := borrow i (fun n => b_ret (n_children n)). (* 823-826 *)
Definition b_has_child_nodes (i : id) : B bool := dob? l := b_child_nodes i in b_ret (negb (is_nil l)). (* 1062-1064 *)
Definition b_is (t : node_type) (i : id) : B bool := borrow i (fun n => b_ret (is_type t n)). (* shared/convert.rs 24-26 *)
(** [as_f(&node).unwrap()], shared/convert.rs 32-39 *)
Definition b_as_unwrap (t : node_type) (i : id) : B unit :=
  dob? b := b_is t i in if b then b_ret tt else b_panic PUnwrap.
Definition b_owner_document (i : id) : B (option id) := borrow i (fun n => b_upgrade (n_owner n)). (* 909-915 *)
Definition b_parent_node (i : id) : B (option id) := (* 812-821 *)
  dob? a := b_is NAttribute i in
  if a then b_ret None else borrow i (fun n => b_upgrade (n_parent n)).
(** 838-869, 871-898: the parent is borrowed while the node is. *)
Definition b_sibling (pick : nat -> list id -> option id) (i : id) : B (option id) :=
  dob? a := b_is NAttribute i in
  if a then b_ret None else
  borrow i (fun n =>
    dob? p := b_upgrade (n_parent n) in
    match p with
    | None => b_ret None
    | Some p => borrow p (fun np => b_ret match position i (n_children np) with
                                          | None => None
                                          | Some k => pick k (n_children np)
                                          end)
    end).
Definition b_previous_sibling : id -> B (option id) :=
  b_sibling (fun k l => match k with O => None | S k => l !! k end).
Definition b_next_sibling : id -> B (option id) := b_sibling (fun k l => l !! S k).

(** ** CharacterData *)
Definition b_data (i : id) : B (option str) := (* traits.rs 157-168 *)
  dob? t := b_node_type i in
  dob? v := b_node_value i in
  b_ret match v with
        | None => None
        | Some v => Some (if type_eqb t NText || type_eqb t NComment then escape v else v)
        end.
Definition b_length (i : id) : B N := (* traits.rs 132-137 *)
  dob? d := b_data i in b_ret match d with None => 0%N | Some s => blen s end.
Definition b_substring_data (E : env) (i : id) (offset count : N) : B str := (* 144-165 *)
  dob? e := b_pure (usize_add (e_checked E) offset count) in
  if (e =? offset)%N then b_ret [] else
  borrow i (fun n => b_pure
    match n_value n with
    | None => Err IndexSize
    | Some v =>
        if (blen v <=? offset)%N then Err IndexSize
        else if (blen v <=? e)%N then let? p := split_at_res v offset in Ok p.2
        else if (e <? offset)%N then Panic PSlice
        else let? p := split_at_res v e in let? q := split_at_res p.1 offset in Ok q.2
    end).
Definition b_set_node_value (i : id) (v : option str) : B unit := (* 795-805 *)
  borrow_mut i (fun _ => write i (set_value v)).
Definition b_append_data (i : id) (x : str) : B unit := (* 167-177 *)
  if is_nil x then b_ret tt else
  borrow_mut i (fun n => write i (set_value (Some (match n_value n with None => x | Some v => v ++ x end)))).
Definition b_replace_data (E : env) (i : id) (offset count : N) (x : str) : B unit := (* 194-222 *)
  borrow_mut i (fun n =>
    dob? v := b_pure (replace_value E (n_value n) offset count x) in
    write i (set_value (Some v))).
Definition b_insert_data (E : env) (i : id) (offset : N) (x : str) : B unit := (* 179-184 *)
  if is_nil x then b_ret tt else b_replace_data E i offset 0 x.
Definition b_delete_data (E : env) (i : id) (offset count : N) : B unit := (* 186-192 *)
  dob? e := b_pure (usize_add (e_checked E) offset count) in
  if (e =? offset)%N then b_ret tt else b_replace_data E i offset count [].

(** ** Tree structure *)
(** 1267-1269: both guards are held to the end of the function. *)
Definition b_is_child_allowed (p c : id) : B bool :=
  borrow p (fun np => borrow c (fun nc => b_ret (is_child_allowed (n_type np) (n_type nc)))).
(** 1212-1245 *)
Definition b_check_same_document (self child : id) : B unit :=
  dob? t := b_node_type self in
  if type_eqb t NDocument then
    borrow child (fun nc =>
      match n_owner nc with
      | None => b_ret tt
      | Some d =>
          dob? d := b_upgrade (Some d) in
          dob? d := b_pure (unwrap_opt d) in
          if bool_decide (self = d) then b_ret tt else b_fail WrongDocument
      end)
  else
    borrow self (fun ns => borrow child (fun nc =>
      match n_owner ns, n_owner nc with
      | None, None => b_ret tt
      | Some _, None => b_ret tt
      | None, Some _ => b_fail WrongDocument
      | Some a, Some b =>
          dob? a := b_upgrade (Some a) in
          dob? a := b_pure (unwrap_opt a) in
          dob? b := b_upgrade (Some b) in
          dob? b := b_pure (unwrap_opt b) in
          if bool_decide (a = b) then b_ret tt else b_fail WrongDocument
      end)).
(** 1033-1056; [removed] is the node found, which equals [old]. *)
Definition b_remove_child (self old : id) : B id :=
  dob? position := borrow self (fun n => b_ret (position old (n_children n))) in
  match position with
  | None => b_fail NotFound
  | Some k =>
      dob? _ := borrow_mut self (fun n => write self (set_children (delete k (n_children n)))) in
      borrow_mut old (fun _ => dob? _ := write old (set_parent None) in b_ret old)
  end.
(** 918-929 *)
Definition b_insert_or_append (self child : id) (pos : option nat) : B unit :=
  borrow_mut self (fun n =>
    match pos with
    | None => write self (set_children (n_children n ++ [child]))
    | Some k => match vec_insert k child (n_children n) with
                | Some l => write self (set_children l)
                | None => b_panic PIndex
                end
    end).
(** 940-943 *)
Fixpoint b_any_element (l : list id) : B bool :=
  match l with
  | [] => b_ret false
  | c :: t => dob? y := b_node_type c in if type_eqb y NElement then b_ret true else b_any_element t
  end.
(** 1000-1006 *)
Fixpoint b_insert_all (self : id) (l : list id) (pos : option nat) (index : nat) : B unit :=
  match l with
  | [] => b_ret tt
  | c :: t =>
      dob? _ := b_insert_or_append self c (option_map (fun p => (p + index)%nat) pos) in
      b_insert_all self t pos (S index)
  end.
(** 917-1012 *)
Definition b_insert_before (self new : id) (ref : option id) : B id :=
  dob? allowed := b_is_child_allowed self new in
  if negb allowed then b_fail HierarchyRequest else
  dob? second :=
    (dob? d := b_is NDocument self in
     if negb d then b_ret false else
     dob? e := b_is NElement new in
     if negb e then b_ret false else
     dob? l := b_child_nodes self in
     b_any_element l) in
  if second then b_fail HierarchyRequest else
  dob? pos := match ref with
              | None => b_ret None
              | Some r => borrow self (fun n => match position r (n_children n) with
                                                | None => b_fail NotFound
                                                | Some k => b_ret (Some k)
                                                end)
              end in
  dob? _ := b_check_same_document self new in
  dob? parent := b_parent_node new in
  dob? _ := match parent with
            | None => b_ret tt
            | Some p => dob? _ := b_remove_child p new in b_ret tt
            end in
  (* 984-995: one shared and one mutable guard, and [is_document] takes another *)
  dob? _ := borrow self (fun ns => borrow_mut new (fun _ =>
              dob? _ := write new (set_parent (Some self)) in
              dob? d := b_is NDocument self in
              if d then write new (set_owner (Some self)) else write new (set_owner (n_owner ns)))) in
  dob? f := b_is NDocumentFragment new in
  dob? _ := (if f then dob? l := b_child_nodes new in b_insert_all self l pos 0
             else b_insert_or_append self new pos) in
  b_ret new.
Definition b_append_child (self new : id) : B id := b_insert_before self new None. (* 1058-1060 *)
(** 1014-1031 *)
Definition b_replace_child (self new old : id) : B id :=
  dob? allowed := b_is_child_allowed self new in
  if negb allowed then b_fail HierarchyRequest else
  dob? exists_ := borrow self (fun n => b_ret (bool_decide (old ∈ n_children n))) in
  if exists_ : bool then
    dob? next := b_next_sibling old in
    dob? removed := b_remove_child self old in
    dob? _ := b_insert_before self new next in
    b_ret removed
  else b_fail NotFound.
(** 1066-1070 with node_impl.rs 308-366: the guard is held while the children are cloned. *)
Fixpoint b_clone_rec (fuel : nat) (deep : bool) (i : id) : B id :=
  match fuel with
  | O => fun _ h => (h, Diverge)
  | S k =>
      borrow i (fun n =>
        dob? children := (if deep then b_map (b_clone_rec k deep) (n_children n) else b_ret []) in
        b_free (allocM (mkNode (n_type n) (n_name n) (n_value n) None (n_owner n) children (n_ext n))))
  end.
Definition b_clone_node (deep : bool) (i : id) : B id := fun g h => b_clone_rec (walk_fuel h) deep i g h.
(** 1072-1095 *)
Definition b_normalize_step (self child : id) : B unit :=
  dob? t := b_is NText child in
  if t then
    dob? len := b_length child in
    if (len =? 0)%N then
      dob? _ := b_err_to_panic PExplicit (b_remove_child self child) in b_ret tt
    else
      dob? prev := b_previous_sibling child in
      match prev with
      | None => b_ret tt
      | Some p =>
          dob? pt := b_is NText p in
          if pt then
            dob? v := b_node_value child in
            dob? v := b_pure (unwrap_opt v) in
            dob? _ := b_err_to_panic PExplicit (b_append_data p v) in
            dob? _ := b_err_to_panic PExplicit (b_remove_child self child) in b_ret tt
          else b_ret tt
      end
  else b_ret tt.
Definition b_normalize (self : id) : B unit :=
  dob? l := b_child_nodes self in b_iter (b_normalize_step self) l.
(** 1124-1166 *)
Definition b_split (E : env) (self : id) (offset : N) : B id :=
  dob? c := borrow self (fun n => b_ret (is_character_data n)) in (* convert.rs 105 *)
  if negb c then b_fail InvalidState else
  dob? len := b_length self in
  dob? new_data :=
    (if (len <=? offset)%N then b_ret []
     else
       dob? s := b_substring_data E self offset (len - offset) in
       dob? _ := b_delete_data E self offset (len - offset) in
       b_ret s) in
  dob? new_node :=
    borrow_mut self (fun n => (* 1143 *)
      match n_type n with
      | NText => dob? d := b_pure (unwrap_opt (n_owner n)) in b_ret (new_text d new_data)
      | NCData => dob? d := b_pure (unwrap_opt (n_owner n)) in b_ret (new_cdata d new_data)
      | _ => b_fail Syntax
      end) in
  dob? new := b_free (allocM new_node) in
  dob? parent := b_parent_node self in
  match parent with
  | None => b_ret new
  | Some p =>
      dob? next := b_next_sibling self in
      dob? _ := b_insert_before p new next in
      b_ret new
  end.

(** ** Attributes *)
Definition b_doc_type (i : id) : B (option id) := (* 232-234 *)
  borrow i (fun n => b_ret match n_ext n with XDocument _ d _ _ => d | _ => None end).
(** entity_resolver.rs 14-42 *)
Definition b_resolve (i : id) (entity : str) : B (option str) :=
  dob? t := b_node_type i in
  dob? dt :=
    match t with
    | NDocumentType => b_ret (Some i)
    | NDocument => dob? _ := b_as_unwrap NDocument i in b_doc_type i
    | _ => dob? o := b_owner_document i in
           match o with
           | None => b_ret None
           | Some d => dob? _ := b_as_unwrap NDocument d in b_doc_type d
           end
    end in
  match dt with
  | None => b_ret None
  | Some dt =>
      dob? _ := b_as_unwrap NDocumentType dt in
      dob? name := b_pure (unwrap_res (name_from_str entity)) in
      dob? ents := borrow dt (fun n => b_ret match n_ext n with XDocumentType e _ _ _ _ => e | _ => [] end) in
      match hm_get name ents with
      | None => b_ret None
      | Some e => b_node_value e
      end
  end.
(** 83-97 *)
Fixpoint b_attr_text (l : list id) : B str :=
  match l with
  | [] => b_ret []
  | c :: t =>
      dob? y := b_node_type c in
      dob? v :=
        (if type_eqb y NEntityReference then b_node_value c
         else dob? y := b_node_type c in
              if type_eqb y NText then borrow c (fun n => b_ret (n_value n)) else b_ret None) in
      dob? rest := b_attr_text t in
      b_ret (match v with Some v => v | None => [] end ++ rest)
  end.
(** 80-103 *)
Definition b_attr_value (E : env) (i : id) : B (option str) :=
  dob? c := b_has_child_nodes i in
  if c then
    dob? l := b_child_nodes i in
    dob? raw := b_attr_text l in
    dob? norm := (fun g => lift (fun h =>
      normalize_attribute_value entity_fuel E (fun e => (b_resolve i e g h).2) false raw)) in
    b_ret (Some (escape norm))
  else b_ret None.
Definition b_attr_unset_value (i : id) : B unit := borrow_mut i (fun _ => write i (set_children [])). (* 111-115 *)
Definition b_attr_set_value (i : id) (v : str) : B unit := (* 104-110 *)
  dob? _ := b_attr_unset_value i in
  dob? o := b_owner_document i in
  dob? d := b_pure (unwrap_opt o) in
  dob? _ := b_as_unwrap NDocument d in
  dob? t := b_free (create_text_node d v) in
  dob? _ := b_append_child i t in
  b_ret tt.
(** namespaced.rs 88-98 *)
Definition b_add_namespaces (i : id) : B bool :=
  dob? o := b_owner_document i in
  match o with
  | None => b_ret false
  | Some d => borrow d (fun nd =>
      b_ret match n_ext nd with XDocument _ _ _ o => has_add_namespaces o | _ => false end)
  end.
(** namespaced.rs 208-228 *)
Definition b_insert_mapping (i : id) (prefix : option str) (uri : str) : B unit :=
  dob? b := b_add_namespaces i in
  if negb b then b_ret tt else
  borrow_mut i (fun n =>
    if is_type NElement n then
      match n_ext n with
      | XElement a ns => write i (set_ext (XElement a (hm_insert prefix uri ns)))
      | _ => b_fail InvalidState
      end
    else b_fail InvalidState).
(** 459-484 *)
Definition b_get_attribute_node (E : env) (i : id) (name : str) : B (option id) :=
  dob? e := b_is NElement i in
  if e then
    match name_from_str name with
    | Ok nm =>
        borrow i (fun n => b_ret match n_ext n with
          | XElement attrs _ =>
              option_map snd (find_first (fun p => str_eqb (name_to_string p.1) (name_to_string nm))
                                         (e_ord_attr E attrs))
          | _ => None
          end)
    | Err _ => b_ret None
    | Panic p => b_panic p
    | Diverge => fun _ h => (h, Diverge)
    end
  else b_ret None.
(** 643-672 *)
Definition b_get_attribute_node_ns (E : env) (i : id) (uri local : str) : B (option id) :=
  dob? e := b_is NElement i in
  if e then
    match name_new_ns uri local with
    | Ok _ =>
        borrow i (fun n => b_ret match n_ext n with
          | XElement attrs _ =>
              option_map snd (find_first (fun p => ostr_eqb (nm_ns p.1) (Some uri)
                                                   && str_eqb (nm_local p.1) local)
                                         (e_ord_attr E attrs))
          | _ => None
          end)
    | Err _ => b_ret None
    | Panic p => b_panic p
    | Diverge => fun _ h => (h, Diverge)
    end
  else b_ret None.
(** 486-565: the guard to the element (519) is held to the end, the one to the document (529) while the
    value of the attribute is read (546). *)
Definition b_set_attribute_node (E : env) (self new : id) : B id :=
  dob? both := (dob? e := b_is NElement self in if e then b_is NAttribute new else b_ret false) in
  if negb both then b_fail InvalidState else
  dob? _ := b_check_same_document self new in
  dob? _ := borrow_mut new (fun n =>
              match n_ext n with
              | XAttribute _ => write new (set_ext (XAttribute (Some self)))
              | _ => b_panic PExplicit
              end) in
  dob? name := b_node_name new in
  dob? _ :=
    (if is_namespace_attribute name then
       dob? _ := b_as_unwrap NAttribute new in
       dob? v := b_attr_value E new in
       dob? v := b_pure (unwrap_opt v) in
       dob? _ := b_as_unwrap NElement self in
       b_insert_mapping self (nm_prefix name) v
     else b_ret tt) in
  borrow_mut self (fun ns =>
    match n_ext ns with
    | XElement attrs nss =>
        dob? key := b_node_name new in
        dob? _ := write self (set_ext (XElement (hm_insert key new attrs) nss)) in
        dob? _ := b_as_unwrap NAttribute new in
        dob? o := b_owner_document new in
        dob? d := b_pure (unwrap_opt o) in
        borrow_mut d (fun nd =>
          let lax := match n_ext nd with XDocument _ _ _ o => has_assume_ids o | _ => false end in
          if is_id_attribute name lax then
            match n_ext nd with
            | XDocument decl dt m o =>
                dob? v := b_attr_value E new in
                dob? v := b_pure (unwrap_opt v) in
                match hm_get v m with
                | Some _ => b_fail Syntax
                | None =>
                    dob? _ := write d (set_ext (XDocument decl dt (hm_insert v self m) o)) in
                    b_ret new
                end
            | _ => b_ret new
            end
          else b_ret new)
    | _ => b_fail Syntax
    end).
(** 442-450 / 621-634: a mutable guard, though the node is only read *)
Definition b_set_new_attribute (E : env) (self : id) (name : Name) (value : str) : B unit :=
  dob? a := borrow_mut self (fun ns =>
              dob? d := b_pure (unwrap_opt (n_owner ns)) in
              b_free (new_attribute d name (Some value))) in
  dob? a := b_free (allocM a) in
  dob? _ := b_set_attribute_node E self a in
  b_ret tt.
Definition b_set_attribute (E : env) (self : id) (name value : str) : B unit := (* 442-450 *)
  dob? nm := b_pure (name_from_str name) in b_set_new_attribute E self nm value.
Definition b_set_attribute_ns (E : env) (self : id) (uri qname value : str) : B unit := (* 621-634 *)
  dob? nm := b_pure (name_new_ns uri qname) in b_set_new_attribute E self nm value.
(** 567-586: the element stays mutably borrowed while the attribute is. *)
Definition b_remove_attribute_node (self old : id) : B id :=
  dob? e := b_is NElement self in
  if e then
    borrow_mut self (fun ns =>
      match n_ext ns with
      | XElement attrs nss =>
          dob? name := b_node_name old in
          dob? _ := write self (set_ext (XElement (hm_remove name attrs) nss)) in
          borrow_mut old (fun _ => dob? _ := write old (set_parent None) in b_ret old)
      | _ => b_fail Syntax
      end)
  else b_fail InvalidState.
Definition b_remove_attribute (E : env) (self : id) (name : str) : B unit := (* 452-457 *)
  dob? a := b_get_attribute_node E self name in
  match a with
  | None => b_ret tt
  | Some a => dob? _ := b_remove_attribute_node self a in b_ret tt
  end.
Definition b_remove_attribute_ns (E : env) (self : id) (uri local : str) : B unit := (* 636-641 *)
  dob? a := b_get_attribute_node_ns E self uri local in
  match a with
  | None => b_ret tt
  | Some a => dob? _ := b_remove_attribute_node self a in b_ret tt
  end.

(** ** Documents *)
(** 1323-1356; the factories only clone and downgrade the handle to the document *)
Definition b_create_document_with_options (uri qname : option str) (dt : option id) (o : options) : B id :=
  dob? _ := b_free (match dt with Some t => with_handle t (ret tt) | None => ret tt end) in
  dob? d := b_free (allocM (new_document dt o)) in
  dob? is_doc := b_is NDocument d in
  if negb is_doc then b_fail InvalidState else
  dob? e :=
    match uri, qname with
    | Some u, Some q => dob? e := b_free (create_element_ns d u q) in b_ret (Some e)
    | None, Some q => dob? e := b_free (create_element d q) in b_ret (Some e)
    | Some _, None => b_fail Namespace
    | None, None => b_ret None
    end in
  dob? _ := match e with
            | Some e =>
                dob? is_doc := b_is NDocument d in
                if negb is_doc then b_fail InvalidState else
                dob? _ := b_append_child d e in b_ret tt
            | None => b_ret tt
            end in
  b_ret d.
(** ext/trait_impls.rs 27-40 *)
Definition b_set_xml_declaration (i : id) (x : xml_decl) : B unit :=
  borrow_mut i (fun n =>
    match n_ext n with
    | XDocument _ dt m o => write i (set_ext (XDocument (Some x) dt m o))
    | _ => b_fail InvalidState
    end).
Definition b_xml_declaration (i : id) : B (option xml_decl) := (* ext/trait_impls.rs 14-25 *)
  borrow i (fun n => b_ret match n_ext n with XDocument d _ _ _ => d | _ => None end).

(** ** The parser (parser/mod.rs)

    It calls the functions above one after the other and holds no guard across them, except at 128-144
    where it holds one to the document while it decodes the declaration.  The checks of [as_document_mut]
    on the document it has created are left out, as in [Parser]. *)
Fixpoint b_handle_attributes (E : env) (doc el : id) (l : list pattr) : PM unit := (* 260-266 *)
  match l with
  | [] => pret tt
  | PAttrMalformed :: _ => fun h => (h, PPanic PUnwrap)
  | PAttrBadValue :: _ => pfail PEQuickXml
  | PAttr name value :: t =>
      dop? a := pdom (create_attribute_with doc name value) in
      dop? _ := pdom (b_set_attribute_node E el a []) in
      b_handle_attributes E doc el t
  end.
Definition b_handle_start (E : env) (doc parent : id) (name : option str) (attrs : list pattr) : PM id := (* 243-269 *)
  dop? name := pdecode name in
  dop? el := pdom_unwrap (create_element doc name) in
  dop? el := pdom (b_append_child parent el []) in
  dop? _ := b_handle_attributes E doc el attrs in
  pret el.
Definition b_handle_comment (doc parent : id) (text : option str) : PM id := (* 284-298 *)
  dop? text := pdecode text in
  dop? n := pdom (create_comment doc text) in pdom (b_append_child parent n []).
Definition b_handle_text (doc parent : id) (text : option str) : PM id := (* 300-313 *)
  dop? text := pdecode text in
  dop? n := pdom (create_text_node doc text) in pdom (b_append_child parent n []).
Definition b_handle_cdata (doc parent : id) (text : option str) : PM id := (* 315-328 *)
  dop? text := pdecode text in
  dop? n := pdom_unwrap (create_cdata_section doc text) in pdom (b_append_child parent n []).
Definition b_handle_pi (doc parent : id) (text : option str) : PM id := (* 330-364 *)
  dop? text := pdecode text in
  let '(target, d) := pi_parts text in
  dop? n := pdom_unwrap (create_processing_instruction doc target d) in
  pdom (b_append_child parent n []).
(** 127-145: the guard taken first is the one written through last; nothing else is borrowed between. *)
Definition b_handle_decl (doc : id) (version : option str) (encoding standalone : option (option str)) : PM unit :=
  dop? old := pdom (borrow_mut doc (fun n => b_ret match n_ext n with XDocument d _ _ _ => d | _ => None end) []) in
  match old with
  | Some _ => pfail PEMalformed
  | None =>
      dop? r := make_decl version encoding standalone in
      dop? v := punwrap (version_from_str r.1.1) in
      dop? d := pdom (lift (fun _ => xml_decl_new v r.1.2 r.2)) in
      pdom (b_set_xml_declaration doc d [])
  end.
Fixpoint b_element (fuel : nat) (E : env) (doc parent : id) (evs : list event) (h : heap) (* 198-239 *)
  : heap * list event * pres id :=
  match fuel with
  | O => (h, evs, PDiverge)
  | S k =>
      let step {A} (m : PM A) (rest : list event) : heap * list event * pres id :=
        match m h with
        | (h', POk _) => b_element k E doc parent rest h'
        | (h', PErr e) => (h', rest, PErr e)
        | (h', PPanic p) => (h', rest, PPanic p)
        | (h', PDiverge) => (h', rest, PDiverge)
        end in
      match evs with
      | [] => (h, [], PErr PEMalformed)
      | EStart name attrs :: rest =>
          match b_handle_start E doc parent name attrs h with
          | (h', POk el) =>
              match b_element k E doc el rest h' with
              | (h'', rest', POk _) => b_element k E doc parent rest' h''
              | r => r
              end
          | (h', PErr e) => (h', rest, PErr e)
          | (h', PPanic p) => (h', rest, PPanic p)
          | (h', PDiverge) => (h', rest, PDiverge)
          end
      | EEmpty name attrs :: rest => step (b_handle_start E doc parent name attrs) rest
      | EEnd :: rest => (h, rest, POk parent)
      | EComment t :: rest => step (b_handle_comment doc parent t) rest
      | EPI t :: rest => step (b_handle_pi doc parent t) rest
      | EText t :: rest => step (b_handle_text doc parent t) rest
      | ECData t :: rest => step (b_handle_cdata doc parent t) rest
      | EDecl _ _ _ :: rest => (h, rest, PErr PEMalformed)
      | EDocType :: rest => (h, rest, PErr PEMalformed)
      | EError :: rest => (h, rest, PErr PEQuickXml)
      end
  end.
Fixpoint b_document_loop (fuel : nat) (E : env) (doc : id) (evs : list event) (h : heap) : heap * pres id := (* 121-185 *)
  match fuel with
  | O => (h, PDiverge)
  | S k =>
      let step {A} (m : PM A) (rest : list event) : heap * pres id :=
        match m h with
        | (h', POk _) => b_document_loop k E doc rest h'
        | (h', PErr e) => (h', PErr e)
        | (h', PPanic p) => (h', PPanic p)
        | (h', PDiverge) => (h', PDiverge)
        end in
      match evs with
      | [] => (h, POk doc)
      | EDecl v e s :: rest => step (b_handle_decl doc v e s) rest
      | EStart name attrs :: rest =>
          match b_handle_start E doc doc name attrs h with
          | (h', POk el) =>
              match b_element (S (length rest)) E doc el rest h' with
              | (h'', rest', POk _) => b_document_loop k E doc rest' h''
              | (h'', rest', PErr _) => b_document_loop k E doc rest' h''
              | (h'', _, PPanic p) => (h'', PPanic p)
              | (h'', _, PDiverge) => (h'', PDiverge)
              end
          | (h', PErr e) => (h', PErr e)
          | (h', PPanic p) => (h', PPanic p)
          | (h', PDiverge) => (h', PDiverge)
          end
      | EEmpty name attrs :: rest => step (b_handle_start E doc doc name attrs) rest
      | EEnd :: rest => b_document_loop k E doc rest h
      | EComment t :: rest => step (b_handle_comment doc doc t) rest
      | EPI t :: rest => step (b_handle_pi doc doc t) rest
      | EText _ :: _ => (h, PErr PEMalformed)
      | ECData _ :: _ => (h, PErr PEMalformed)
      | EDocType :: _ => (h, PErr PEMalformed)
      | EError :: _ => (h, PErr PEQuickXml)
      end
  end.
Definition b_read_events (E : env) (evs : list event) (h : heap) : heap * pres id := (* 70-80, 92-98 *)
  match pdom_unwrap (b_create_document_with_options None None None (set_add_namespaces options_new) []) h with
  | (h', POk doc) => b_document_loop (S (length evs)) E doc evs h'
  | (h', PErr e) => (h', PErr e)
  | (h', PPanic p) => (h', PPanic p)
  | (h', PDiverge) => (h', PDiverge)
  end.
Definition b_read_xml_op (E : env) (evs : list event) : B (option id) := fun _ h =>
  match b_read_events E evs h with
  | (h', POk d) => (h', Ok (Some d))
  | (h', PErr (PEDom e)) => (h', Err e)
  | (h', PErr _) => (h', Err Syntax)
  | (h', PPanic p) => (h', Panic p)
  | (h', PDiverge) => (h', Diverge)
  end.

(** ** One call *)
Definition b_out {A} (f : A -> option id) (m : B A) : B (option id) := dob? x := m in b_ret (f x).
(** The factories (trait_impls.rs 236-327, dom_impl.rs) build a node from their arguments and a weak
    reference to the document; they take no guard. *)
Definition b_exec (E : env) (o : op) : B (option id) :=
  match o with
  | OCreateDocument u q t o => b_out Some (b_create_document_with_options u q t o)
  | OReadXml evs => b_read_xml_op E evs
  | OInsertBefore p c r => b_out Some (b_insert_before p c r)
  | OAppendChild p c => b_out Some (b_append_child p c)
  | OReplaceChild p n o => b_out Some (b_replace_child p n o)
  | ORemoveChild p c => b_out Some (b_remove_child p c)
  | OClone d i => b_out Some (b_clone_node d i)
  | ONormalize i => b_out no_id (b_normalize i)
  | OSetNodeValue i v => b_out no_id (b_set_node_value i (Some v))
  | OUnsetNodeValue i => b_out no_id (b_set_node_value i None)
  | OAppendData i s => b_out no_id (b_append_data i s)
  | OInsertData i o s => b_out no_id (b_insert_data E i o s)
  | ODeleteData i o c => b_out no_id (b_delete_data E i o c)
  | OReplaceData i o c s => b_out no_id (b_replace_data E i o c s)
  | OSplit i o => b_out Some (b_split E i o)
  | OAttrSetValue i v => b_out no_id (b_attr_set_value i v)
  | OAttrUnsetValue i => b_out no_id (b_attr_unset_value i)
  | OSetAttribute e n v => b_out no_id (b_set_attribute E e n v)
  | OSetAttributeNs e u q v => b_out no_id (b_set_attribute_ns E e u q v)
  | OSetAttributeNode e a => b_out Some (b_set_attribute_node E e a)
  | ORemoveAttribute e n => b_out no_id (b_remove_attribute E e n)
  | ORemoveAttributeNs e u l => b_out no_id (b_remove_attribute_ns E e u l)
  | ORemoveAttributeNode e a => b_out Some (b_remove_attribute_node e a)
  | OSetXmlDecl d x => b_out no_id (b_set_xml_declaration d x)
  | OCreateDocumentType _ _ _ | OCreateElement _ _ | OCreateElementNs _ _ _ | OCreateAttribute _ _ | OCreateAttributeWith _ _ _
  | OCreateAttributeNs _ _ _ | OCreateText _ _ | OCreateCData _ _ | OCreateComment _ _ | OCreatePI _ _ _ | OCreateFragment _
  | OCreateEntityReference _ _ | OCreateNotation _ _ _ _ | OCreateEntity _ _ _ _ | OCreateInternalEntity _ _ _ | ODrop _ =>
      b_free (exec E o)
  end.
