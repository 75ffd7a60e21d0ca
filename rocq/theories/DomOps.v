(** * DomOps: src/level2/trait_impls.rs, the trait defaults of src/level2/traits.rs,
    src/level2/entity_resolver.rs and the mutating half of src/level2/ext/namespaced.rs.

    Reads are functions of the heap; mutators are computations [M].  Every trait is implemented for
    every [RefNode], so receivers are not restricted to the matching node type here. *)
From Verif Require Export Dom.

Definition is_type (t : node_type) (n : node) : bool := type_eqb (n_type n) t.

(** ** Node: simple reads (trait_impls.rs 785-836, 900-915) *)
Definition node_name (h : heap) (i : id) : res Name := let? n := get_node h i in Ok (n_name n). (* 785-788 *)
Definition node_value (h : heap) (i : id) : res (option str) := let? n := get_node h i in Ok (n_value n). (* 790-793 *)
Definition node_type_of (h : heap) (i : id) : res node_type := let? n := get_node h i in Ok (n_type n). (* 807-810 *)
Definition child_nodes (h : heap) (i : id) : res (list id) := let? n := get_node h i in Ok (n_children n). (* 823-826 *)
Definition first_child (h : heap) (i : id) : res (option id) :=
  let? n := get_node h i in Ok (head (n_children n)). (* 828-831 *)
Definition last_child (h : heap) (i : id) : res (option id) :=
  let? n := get_node h i in Ok (last (n_children n)). (* 833-836 *)
Definition has_child_nodes (h : heap) (i : id) : res bool :=
  let? n := get_node h i in Ok (negb (is_nil (n_children n))). (* 1062-1064 *)
Definition owner_document (h : heap) (i : id) : res (option id) :=
  let? n := get_node h i in Ok (upgrade h (n_owner n)). (* 909-915 *)
(** 812-821 *)
Definition parent_node (h : heap) (i : id) : res (option id) :=
  let? n := get_node h i in
  Ok (if is_type NAttribute n then None else upgrade h (n_parent n)).
(** 900-907 *)
Definition attributes (h : heap) (i : id) : res (list (Name * id)) :=
  let? n := get_node h i in
  Ok (if is_type NElement n then match n_ext n with XElement a _ => a | _ => [] end else []).
Definition has_attributes (h : heap) (i : id) : res bool := (* 1101-1103 *)
  let? a := attributes h i in Ok (negb (is_nil a)).

(** [Iterator::position] with [RefNode] equality. *)
Fixpoint position (x : id) (l : list id) : option nat :=
  match l with
  | [] => None
  | y :: t => if bool_decide (y = x) then Some O else option_map S (position x t)
  end.

(** 838-869 *)
Definition previous_sibling (h : heap) (i : id) : res (option id) :=
  let? n := get_node h i in
  if is_type NAttribute n then Ok None else
  match upgrade h (n_parent n) with
  | None => Ok None
  | Some p =>
      let? np := get_node h p in
      match position i (n_children np) with
      | None => Ok None
      | Some O => Ok None
      | Some (S k) => Ok (n_children np !! k)
      end
  end.
(** 871-898 *)
Definition next_sibling (h : heap) (i : id) : res (option id) :=
  let? n := get_node h i in
  if is_type NAttribute n then Ok None else
  match upgrade h (n_parent n) with
  | None => Ok None
  | Some p =>
      let? np := get_node h p in
      match position i (n_children np) with
      | None => Ok None
      | Some k => Ok (n_children np !! S k)
      end
  end.

(** 795-805 *)
Definition set_node_value (i : id) (v : str) : M unit := modifyM i (set_value (Some v)).
Definition unset_node_value (i : id) : M unit := modifyM i (set_value None).

(** 420-423, 1097-1099 *)
Definition has_feature (feature version : str) : bool :=
  (str_eqb feature (lit "Core") || str_eqb feature (lit "XML"))
  && (str_eqb version (lit "1.0") || str_eqb version (lit "2.0")).

(** ** CharacterData (traits.rs 131-180, trait_impls.rs 143-223) *)

(** traits.rs 157-168 *)
Definition data (h : heap) (i : id) : res (option str) :=
  let? n := get_node h i in
  Ok match n_value n with
     | None => None
     | Some v => Some (if is_type NText n || is_type NComment n then escape v else v)
     end.
(** traits.rs 132-137 *)
Definition length_ (h : heap) (i : id) : res N :=
  let? d := data h i in
  Ok match d with None => 0%N | Some s => blen s end.

(** trait_impls.rs 144-165 *)
Definition substring_data (E : env) (h : heap) (i : id) (offset count : N) : res str :=
  let? e := usize_add (e_checked E) offset count in
  if (e =? offset)%N then Ok [] else
  let? n := get_node h i in
  match n_value n with
  | None => Err IndexSize
  | Some v =>
      if (blen v <=? offset)%N then Err IndexSize
      else if (blen v <=? e)%N then let? p := split_at_res v offset in Ok p.2
      else if (e <? offset)%N then Panic PSlice
      else let? p := split_at_res v e in let? q := split_at_res p.1 offset in Ok q.2
  end.

(** 167-177 *)
Definition append_data (i : id) (x : str) : M unit :=
  if is_nil x then ret tt else
  modifyM i (fun n => set_value (Some (match n_value n with None => x | Some v => v ++ x end)) n).

(** 194-222.  [String::replace_range] panics when either end is not on a boundary or start > end. *)
Definition replace_value (E : env) (v : option str) (offset count : N) (x : str) : res str :=
  match v with
  | None => let? e := usize_add (e_checked E) offset count in
            if (e =? 0)%N then Ok x else Err IndexSize
  | Some v =>
      if (blen v <=? offset)%N then Err IndexSize
      else let? e := usize_add (e_checked E) offset count in
           if (blen v <=? e)%N then let? p := split_at_res v offset in Ok (p.1 ++ x)
           else if (e <? offset)%N then Panic PSlice
           else let? p := split_at_res v e in let? q := split_at_res p.1 offset in
                Ok (q.1 ++ x ++ p.2)
  end.
Definition replace_data (E : env) (i : id) (offset count : N) (x : str) : M unit :=
  do? n := getM i in
  do? v := lift (fun _ => replace_value E (n_value n) offset count x) in
  modifyM i (set_value (Some v)).
(** 179-184 *)
Definition insert_data (E : env) (i : id) (offset : N) (x : str) : M unit :=
  if is_nil x then ret tt else replace_data E i offset 0 x.
(** 186-192 *)
Definition delete_data (E : env) (i : id) (offset count : N) : M unit :=
  do? e := lift (fun _ => usize_add (e_checked E) offset count) in
  if (e =? offset)%N then ret tt else replace_data E i offset count [].

(** ** Tree structure *)

(** 1267-1321 *)
Definition is_child_allowed (parent child : node_type) : bool :=
  let content := match child with
                 | NElement | NText | NComment | NProcessingInstruction | NCData | NEntityReference => true
                 | _ => false
                 end in
  match parent with
  | NElement => content
  | NAttribute => match child with NText | NEntityReference => true | _ => false end
  | NText | NCData => false
  | NEntityReference => content
  | NEntity => content
  | NProcessingInstruction | NComment => false
  | NDocument => match child with NElement | NComment | NProcessingInstruction => true | _ => false end
  | NDocumentType => false
  | NDocumentFragment => content
  | NNotation => false
  end.

(** 1212-1245 *)
Definition check_same_document (h : heap) (self child : id) : res unit :=
  let? ns := get_node h self in
  let? nc := get_node h child in
  if is_type NDocument ns then
    match n_owner nc with
    | None => Ok tt
    | Some d => let? d := unwrap_opt (upgrade h (Some d)) in
                if bool_decide (self = d) then Ok tt else Err WrongDocument
    end
  else
    match n_owner ns, n_owner nc with
    | None, None => Ok tt
    | Some _, None => Ok tt
    | None, Some _ => Err WrongDocument
    | Some a, Some b =>
        let? a := unwrap_opt (upgrade h (Some a)) in
        let? b := unwrap_opt (upgrade h (Some b)) in
        if bool_decide (a = b) then Ok tt else Err WrongDocument
    end.

(** 1033-1056 *)
Definition remove_child (self old : id) : M id :=
  do? ns := getM self in
  match position old (n_children ns) with
  | None => fail NotFound
  | Some k =>
      do? _ := modifyM self (fun n => set_children (delete k (n_children n)) n) in
      do? _ := modifyM old (set_parent None) in
      ret old
  end.

(** [Vec::insert]: panics past the end. *)
Definition vec_insert (k : nat) (x : id) (l : list id) : option (list id) :=
  if (k <=? length l)%nat then Some (take k l ++ x :: drop k l) else None.

(** 918-929 *)
Definition insert_or_append (self child : id) (pos : option nat) : M unit :=
  do? ns := getM self in
  match pos with
  | None => modifyM self (fun n => set_children (n_children n ++ [child]) n)
  | Some k => match vec_insert k child (n_children ns) with
              | Some l => modifyM self (set_children l)
              | None => panic_ PIndex
              end
  end.

(** [children.iter().any(|n| n.node_type() == Element)] *)
Fixpoint any_element (h : heap) (l : list id) : res bool :=
  match l with
  | [] => Ok false
  | c :: t => let? n := get_node h c in if is_type NElement n then Ok true else any_element h t
  end.

(** 1000-1006: the DocumentFragment case (never reached, no parent type allows a fragment). *)
Fixpoint insert_all (self : id) (l : list id) (pos : option nat) (index : nat) : M unit :=
  match l with
  | [] => ret tt
  | c :: t =>
      do? _ := insert_or_append self c (option_map (fun p => (p + index)%nat) pos) in
      insert_all self t pos (S index)
  end.

(** 917-1012 *)
Definition insert_before (self new : id) (ref : option id) : M id :=
  do? ns := getM self in
  do? nc := getM new in
  if negb (is_child_allowed (n_type ns) (n_type nc)) then fail HierarchyRequest else
  do? second := (if is_type NDocument ns && is_type NElement nc
                 then lift (fun h => any_element h (n_children ns)) else ret false) in
  if second then fail HierarchyRequest else
  do? pos := match ref with
             | None => ret None
             | Some r => match position r (n_children ns) with
                         | None => fail NotFound
                         | Some k => ret (Some k)
                         end
             end in
  do? _ := lift (fun h => check_same_document h self new) in
  do? parent := lift (fun h => parent_node h new) in
  do? _ := match parent with
           | None => ret tt
           | Some p => do? _ := remove_child p new in ret tt
           end in
  if bool_decide (self = new) then panic_ PBorrow else   (* 985-986: borrow and borrow_mut *)
  do? _ := modifyM new (fun n => set_owner (if is_type NDocument ns then Some self else n_owner ns)
                                   (set_parent (Some self) n)) in
  do? _ := (if is_type NDocumentFragment nc then
              do? l := lift (fun h => child_nodes h new) in insert_all self l pos 0
            else insert_or_append self new pos) in
  ret new.

(** 1058-1060 *)
Definition append_child (self new : id) : M id := insert_before self new None.

(** 1014-1031 *)
Definition replace_child (self new old : id) : M id :=
  do? ns := getM self in
  do? nc := getM new in
  if negb (is_child_allowed (n_type ns) (n_type nc)) then fail HierarchyRequest else
  if bool_decide (old ∈ n_children ns) then
    do? next := lift (fun h => next_sibling h old) in
    do? removed := remove_child self old in
    do? _ := insert_before self new next in
    ret removed
  else fail NotFound.

(** 1072-1095, one iteration of the loop *)
Definition normalize_step (self child : id) : M unit :=
  do? nc := getM child in
  if is_type NText nc then
    do? len := lift (fun h => length_ h child) in
    if (len =? 0)%N then
      do? _ := err_to_panic PExplicit (remove_child self child) in ret tt
    else
      do? prev := lift (fun h => previous_sibling h child) in
      match prev with
      | None => ret tt
      | Some p =>
          do? np := getM p in
          if is_type NText np then
            do? v := lift (fun h => let? v := node_value h child in unwrap_opt v) in
            do? _ := err_to_panic PExplicit (append_data p v) in
            do? _ := err_to_panic PExplicit (remove_child self child) in ret tt
          else ret tt
      end
  else ret tt.
Definition normalize (self : id) : M unit :=
  do? ns := getM self in iterM (normalize_step self) (n_children ns).

(** ** Text::split: 1124-1166 *)
Definition is_character_data (n : node) : bool :=
  is_type NCData n || is_type NComment n || is_type NText n.
Definition split (E : env) (self : id) (offset : N) : M id :=
  do? n := getM self in
  if negb (is_character_data n) then fail InvalidState else   (* as_character_data_mut *)
  do? len := lift (fun h => length_ h self) in
  do? new_data :=
    (if (len <=? offset)%N then ret []
     else
       do? s := lift (fun h => substring_data E h self offset (len - offset)) in
       do? _ := delete_data E self offset (len - offset) in
       ret s) in
  do? n := getM self in
  do? new_node :=
    match n_type n with
    | NText => do? d := lift (fun _ => unwrap_opt (n_owner n)) in ret (new_text d new_data)
    | NCData => do? d := lift (fun _ => unwrap_opt (n_owner n)) in ret (new_cdata d new_data)
    | _ => fail Syntax
    end in
  do? new := allocM new_node in
  do? parent := lift (fun h => parent_node h self) in
  match parent with
  | None => ret new
  | Some p =>
      do? next := lift (fun h => next_sibling h self) in
      do? _ := insert_before p new next in
      ret new
  end.

(** ** Document: reads *)
Definition doc_type (h : heap) (i : id) : res (option id) := (* 232-234 *)
  let? n := get_node h i in Ok match n_ext n with XDocument _ d _ _ => d | _ => None end.
Definition document_element (h : heap) (i : id) : res (option id) := first_child h i. (* 236-238 *)
Definition get_element_by_id (h : heap) (i : id) (k : str) : res (option id) := (* 323-340 *)
  let? n := get_node h i in
  Ok match n_ext n with XDocument _ _ m _ => upgrade h (hm_get k m) | _ => None end.

(** entity_resolver.rs 14-42: [EntityResolver::resolve] for a node.  [entity] includes the leading
    [&] or [%] and the trailing [;]. *)
Definition resolve_entity (h : heap) (i : id) (entity : str) : res (option str) :=
  let? n := get_node h i in
  let? dt :=
    match n_type n with
    | NDocumentType => Ok (Some i)
    | NDocument => doc_type h i
    | _ => match upgrade h (n_owner n) with
           | None => Ok None
           | Some d =>
               let? nd := get_node h d in
               if is_type NDocument nd then doc_type h d else Panic PUnwrap
           end
    end in
  match dt with
  | None => Ok None
  | Some dt =>
      let? nt := get_node h dt in
      if is_type NDocumentType nt then
        let? name := unwrap_res (name_from_str entity) in
        match n_ext nt with
        | XDocumentType ents _ _ _ _ =>
            match hm_get name ents with
            | None => Ok None
            | Some e => node_value h e
            end
        | _ => Ok None
        end
      else Panic PUnwrap
  end.

(** ** Attribute: 69-135 *)

(** 82-97: concatenation of the text and entity-reference children. *)
Fixpoint attr_text (h : heap) (l : list id) : res str :=
  match l with
  | [] => Ok []
  | c :: t =>
      let? n := get_node h c in
      let v := if is_type NEntityReference n || is_type NText n
               then match n_value n with Some v => v | None => [] end else [] in
      let? rest := attr_text h t in
      Ok (v ++ rest)
  end.
(** Fuel for nested entity expansion; the node resolver never yields a replacement (theorem
    [resolve_never_some]), so the recursion never happens. *)
Definition entity_fuel : nat := 64.
(** 80-103 *)
Definition attr_value (E : env) (h : heap) (i : id) : res (option str) :=
  let? n := get_node h i in
  if is_nil (n_children n) then Ok None else
  let? raw := attr_text h (n_children n) in
  let? norm := normalize_attribute_value entity_fuel E (resolve_entity h i) false raw in
  Ok (Some (escape norm)).
(** 111-115 *)
Definition attr_unset_value (i : id) : M unit := modifyM i (set_children []).
(** 104-110 *)
Definition attr_set_value (i : id) (v : str) : M unit :=
  do? _ := attr_unset_value i in
  do? d := lift (fun h => let? o := owner_document h i in unwrap_opt o) in
  do? nd := getM d in
  if negb (is_type NDocument nd) then panic_ PUnwrap else
  do? t := allocM (new_text d v) in
  do? _ := append_child i t in
  ret tt.
(** 116-134 *)
Definition owner_element (h : heap) (i : id) : res (option id) :=
  let? n := get_node h i in
  Ok match n_ext n with XAttribute o => upgrade h o | _ => None end.

(** ** Namespaced, the parts used by [set_attribute_node]: ext/namespaced.rs *)

(** namespaced.rs 88-98 *)
Definition add_namespaces (h : heap) (i : id) : res bool :=
  let? o := owner_document h i in
  match o with
  | None => Ok false
  | Some d => let? nd := get_node h d in
              Ok match n_ext nd with XDocument _ _ _ o => has_add_namespaces o | _ => false end
  end.
(** namespaced.rs 208-228 *)
Definition insert_mapping (i : id) (prefix : option str) (uri : str) : M unit :=
  do? b := lift (fun h => add_namespaces h i) in
  if negb b then ret tt else
  do? n := getM i in
  if is_type NElement n then
    match n_ext n with
    | XElement a ns => modifyM i (set_ext (XElement a (hm_insert prefix uri ns)))
    | _ => fail InvalidState
    end
  else fail InvalidState.
(** namespaced.rs 230-246 (crate-internal, not called) *)
Definition remove_mapping (i : id) (prefix : option str) : M unit :=
  do? b := lift (fun h => add_namespaces h i) in
  if negb b then ret tt else
  do? n := getM i in
  if is_type NElement n then
    match n_ext n with
    | XElement a ns => modifyM i (set_ext (XElement a (hm_remove prefix ns)))
    | _ => fail InvalidState
    end
  else fail InvalidState.

(** ** Element: attributes *)

(** 459-484 *)
Definition get_attribute_node (E : env) (h : heap) (i : id) (name : str) : res (option id) :=
  let? n := get_node h i in
  if is_type NElement n then
    match name_from_str name with
    | Ok nm =>
        Ok match n_ext n with
           | XElement attrs _ =>
               option_map snd (find_first (fun p => str_eqb (name_to_string p.1) (name_to_string nm))
                                          (e_ord_attr E attrs))
           | _ => None
           end
    | Err _ => Ok None
    | Panic p => Panic p
    | Diverge => Diverge
    end
  else Ok None.
(** 643-672 *)
Definition get_attribute_node_ns (E : env) (h : heap) (i : id) (uri local : str) : res (option id) :=
  let? n := get_node h i in
  if is_type NElement n then
    match name_new_ns uri local with
    | Ok _ =>
        Ok match n_ext n with
           | XElement attrs _ =>
               option_map snd (find_first (fun p => ostr_eqb (nm_ns p.1) (Some uri)
                                                    && str_eqb (nm_local p.1) local)
                                          (e_ord_attr E attrs))
           | _ => None
           end
    | Err _ => Ok None
    | Panic p => Panic p
    | Diverge => Diverge
    end
  else Ok None.
(** [as_attribute(..)] then [value()], used by 429-440 and 608-619 *)
Definition value_of_attribute_node (E : env) (h : heap) (o : option id) : res (option str) :=
  match o with
  | None => Ok None
  | Some a => let? na := get_node h a in
              if is_type NAttribute na then attr_value E h a else Ok None
  end.
Definition get_attribute (E : env) (h : heap) (i : id) (name : str) : res (option str) := (* 429-440 *)
  let? a := get_attribute_node E h i name in value_of_attribute_node E h a.
Definition get_attribute_ns (E : env) (h : heap) (i : id) (uri local : str) : res (option str) := (* 608-619 *)
  let? a := get_attribute_node_ns E h i uri local in value_of_attribute_node E h a.
(** 708-731 *)
Definition has_attribute (h : heap) (i : id) (name : str) : res bool :=
  let? n := get_node h i in
  if is_type NElement n then
    match name_from_str name with
    | Ok nm =>
        Ok match n_ext n with
           | XElement attrs _ => existsb (fun p => str_eqb (name_to_string p.1) (name_to_string nm)) attrs
           | _ => false
           end
    | Err _ => Ok false
    | Panic p => Panic p
    | Diverge => Diverge
    end
  else Ok false.
(** 733-757 *)
Definition has_attribute_ns (h : heap) (i : id) (uri local : str) : res bool :=
  let? n := get_node h i in
  if is_type NElement n then
    match name_new_ns uri local with
    | Ok nm =>
        Ok match n_ext n with
           | XElement attrs _ =>
               existsb (fun p => ostr_eqb (nm_ns p.1) (nm_ns nm) && str_eqb (nm_local p.1) (nm_local nm)) attrs
           | _ => false
           end
    | Err _ => Ok false
    | Panic p => Panic p
    | Diverge => Diverge
    end
  else Ok false.

(** 486-565 *)
Definition set_attribute_node (E : env) (self new : id) : M id :=
  do? ns := getM self in
  do? na := getM new in
  if negb (is_type NElement ns && is_type NAttribute na) then fail InvalidState else
  do? _ := lift (fun h => check_same_document h self new) in
  do? _ := match n_ext na with
           | XAttribute _ => modifyM new (set_ext (XAttribute (Some self)))
           | _ => panic_ PExplicit
           end in
  let name := n_name na in
  do? _ :=
    (if is_namespace_attribute name then
       do? v := lift (fun h => let? v := attr_value E h new in unwrap_opt v) in
       insert_mapping self (nm_prefix name) v
     else ret tt) in
  do? ns := getM self in
  match n_ext ns with
  | XElement attrs nss =>
      do? _ := modifyM self (set_ext (XElement (hm_insert name new attrs) nss)) in
      do? d := lift (fun h => let? o := owner_document h new in unwrap_opt o) in
      if bool_decide (d = self) then panic_ PBorrow else   (* 529: the element is mutably borrowed *)
      do? nd := getM d in
      let lax := match n_ext nd with XDocument _ _ _ o => has_assume_ids o | _ => false end in
      if is_id_attribute name lax then
        match n_ext nd with
        | XDocument decl dt m o =>
            do? v := lift (fun h => let? v := attr_value E h new in unwrap_opt v) in
            match hm_get v m with
            | Some _ => fail Syntax
            | None => do? _ := modifyM d (set_ext (XDocument decl dt (hm_insert v self m) o)) in ret new
            end
        | _ => ret new
        end
      else ret new
  | _ => fail Syntax
  end.

(** 442-450 / 621-634, after the name has been built *)
Definition set_new_attribute (E : env) (self : id) (name : Name) (value : str) : M unit :=
  do? ns := getM self in
  do? d := lift (fun _ => unwrap_opt (n_owner ns)) in
  do? a := new_attribute d name (Some value) in
  do? a := allocM a in
  do? _ := set_attribute_node E self a in
  ret tt.
Definition set_attribute (E : env) (self : id) (name value : str) : M unit := (* 442-450 *)
  do? nm := lift (fun _ => name_from_str name) in set_new_attribute E self nm value.
Definition set_attribute_ns (E : env) (self : id) (uri qname value : str) : M unit := (* 621-634 *)
  do? nm := lift (fun _ => name_new_ns uri qname) in set_new_attribute E self nm value.

(** 567-586: [old.node_name()] while the element is mutably borrowed panics if it is the element. *)
Definition remove_attribute_node (self old : id) : M id :=
  do? ns := getM self in
  if is_type NElement ns then
    match n_ext ns with
    | XElement attrs nss =>
        if bool_decide (old = self) then panic_ PBorrow else
        do? no := getM old in
        do? _ := modifyM self (set_ext (XElement (hm_remove (n_name no) attrs) nss)) in
        do? _ := modifyM old (set_parent None) in
        ret old
    | _ => fail Syntax
    end
  else fail InvalidState.
Definition remove_attribute (E : env) (self : id) (name : str) : M unit := (* 452-457 *)
  do? a := lift (fun h => get_attribute_node E h self name) in
  match a with
  | None => ret tt
  | Some a => do? _ := remove_attribute_node self a in ret tt
  end.
Definition remove_attribute_ns (E : env) (self : id) (uri local : str) : M unit := (* 636-641 *)
  do? a := lift (fun h => get_attribute_node_ns E h self uri local) in
  match a with
  | None => ret tt
  | Some a => do? _ := remove_attribute_node self a in ret tt
  end.

(** ** Element and Document: tag search *)
Definition WILD_CARD : str := lit "*". (* 1180 *)
Definition tag_name_match (test against : str) : bool := (* 1182-1184 *)
  str_eqb test against || str_eqb test WILD_CARD || str_eqb against WILD_CARD.
Definition namespaced_name_match (test_ns : option str) (test_local against_ns against_local : str) : bool :=
  let local_ok := str_eqb test_local against_local || str_eqb test_local WILD_CARD
                  || str_eqb against_local WILD_CARD in
  match test_ns with
  | None => str_eqb against_ns WILD_CARD && local_ok
  | Some t => (str_eqb t against_ns || str_eqb t WILD_CARD || str_eqb against_ns WILD_CARD) && local_ok
  end. (* 1186-1206 *)

Fixpoint concat_res {A B} (f : A -> res (list B)) (l : list A) : res (list B) :=
  match l with
  | [] => Ok []
  | x :: t => let? a := f x in let? b := concat_res f t in Ok (a ++ b)
  end.
(** The common recursion of 588-606 and 678-706, [p] being the name test. *)
Fixpoint search_elements (fuel : nat) (h : heap) (p : Name -> bool) (i : id) : res (list id) :=
  match fuel with
  | O => Diverge
  | S k =>
      let? n := get_node h i in
      if is_type NElement n then
        let? below := concat_res (fun c => let? nc := get_node h c in
                                           if is_type NElement nc then search_elements k h p c else Ok [])
                                 (n_children n) in
        Ok ((if p (n_name n) then [i] else []) ++ below)
      else Ok []
  end.
Definition get_elements_by_tag_name (h : heap) (i : id) (tag : str) : res (list id) := (* 588-606 *)
  search_elements (walk_fuel h) h (fun n => tag_name_match (name_to_string n) tag) i.
Definition get_elements_by_tag_name_ns (h : heap) (i : id) (uri local : str) : res (list id) := (* 678-706 *)
  search_elements (walk_fuel h) h (fun n => namespaced_name_match (nm_ns n) (nm_local n) uri local) i.
Definition document_get_elements_by_tag_name (h : heap) (i : id) (tag : str) : res (list id) := (* 342-351 *)
  let? r := document_element h i in
  match r with Some e => get_elements_by_tag_name h e tag | None => Ok [] end.
Definition document_get_elements_by_tag_name_ns (h : heap) (i : id) (uri local : str) : res (list id) := (* 353-362 *)
  let? r := document_element h i in
  match r with Some e => get_elements_by_tag_name_ns h e uri local | None => Ok [] end.

(** ** Factories: 252-321, 395-418, 1323-1356 and ext/dom_impl.rs 46-90 *)
(** [self.clone().downgrade()] needs a live handle. *)
Definition with_handle {A} (d : id) (m : M A) : M A := do? _ := getM d in m.
Definition create_attribute (d : id) (name : str) : M id := (* 252-256 *)
  with_handle d (do? nm := lift (fun _ => name_from_str name) in
                 do? a := new_attribute d nm None in allocM a).
Definition create_attribute_with (d : id) (name value : str) : M id := (* 258-262 *)
  with_handle d (do? nm := lift (fun _ => name_from_str name) in
                 do? a := new_attribute d nm (Some value) in allocM a).
Definition create_attribute_ns (d : id) (uri qname : str) : M id := (* 264-268 *)
  with_handle d (do? nm := lift (fun _ => name_new_ns uri qname) in
                 do? a := new_attribute d nm None in allocM a).
Definition create_cdata_section (d : id) (s : str) : M id := with_handle d (allocM (new_cdata d s)). (* 270-273 *)
Definition create_document_fragment (d : id) : M id := with_handle d (allocM (new_document_fragment d)). (* 275-278 *)
Definition create_entity_reference (d : id) (name : str) : M id := (* 280-284 *)
  with_handle d (do? nm := lift (fun _ => name_from_str name) in allocM (new_entity_reference d nm)).
Definition create_comment (d : id) (s : str) : M id := with_handle d (allocM (new_comment d s)). (* 286-289 *)
Definition create_element (d : id) (name : str) : M id := (* 291-295 *)
  with_handle d (do? nm := lift (fun _ => name_from_str name) in allocM (new_element d nm)).
Definition create_element_ns (d : id) (uri qname : str) : M id := (* 297-301 *)
  with_handle d (do? nm := lift (fun _ => name_new_ns uri qname) in allocM (new_element d nm)).
Definition create_processing_instruction (d : id) (target : str) (s : option str) : M id := (* 303-316 *)
  with_handle d (if str_eqb (to_ascii_lowercase target) XML_PI_RESERVED then fail Syntax else
                 do? nm := lift (fun _ => name_from_str target) in
                 allocM (new_processing_instruction d nm s)).
Definition create_text_node (d : id) (s : str) : M id := with_handle d (allocM (new_text d s)). (* 318-321 *)
Definition create_document_type (qname : str) (pub sys : option str) : M id := (* 409-418 *)
  do? nm := lift (fun _ => name_from_str qname) in allocM (new_document_type None nm pub sys).
Definition create_notation (d : id) (name : str) (pub sys : option str) : M id := (* ext/dom_impl.rs 46-56 *)
  with_handle d (do? nm := lift (fun _ => name_from_str name) in allocM (new_notation (Some d) nm pub sys)).
Definition create_entity (d : id) (name : str) (pub sys : option str) : M id := (* ext/dom_impl.rs 64-74 *)
  with_handle d (do? nm := lift (fun _ => name_from_str name) in allocM (new_entity (Some d) nm pub sys)).
Definition create_internal_entity (d : id) (name value : str) : M id := (* ext/dom_impl.rs 82-90 *)
  with_handle d (do? nm := lift (fun _ => name_from_str name) in allocM (new_internal_entity (Some d) nm value)).

(** 1323-1356.  A document that is abandoned because the name is bad stays allocated in the model
    (in Rust it is dropped); [doc_type] must be a live node. *)
Definition create_document_with_options (uri qname : option str) (dt : option id) (o : options) : M id :=
  do? _ := match dt with Some t => with_handle t (ret tt) | None => ret tt end in
  do? d := allocM (new_document dt o) in
  do? e :=
    match uri, qname with
    | Some u, Some q => do? e := create_element_ns d u q in ret (Some e)
    | None, Some q => do? e := create_element d q in ret (Some e)
    | Some _, None => fail Namespace
    | None, None => ret None
    end in
  do? _ := match e with Some e => do? _ := append_child d e in ret tt | None => ret tt end in
  ret d.
Definition create_document (uri qname : option str) (dt : option id) : M id := (* 398-407 *)
  create_document_with_options uri qname dt (set_add_namespaces options_new).

(** ** DocumentDecl: ext/trait_impls.rs 13-40 *)
Definition xml_declaration (h : heap) (i : id) : res (option xml_decl) :=
  let? n := get_node h i in Ok match n_ext n with XDocument d _ _ _ => d | _ => None end.
Definition set_xml_declaration (i : id) (d : xml_decl) : M unit :=
  do? n := getM i in
  match n_ext n with
  | XDocument _ dt m o => modifyM i (set_ext (XDocument (Some d) dt m o))
  | _ => fail InvalidState
  end.
