(** * Dom: the node store — src/level2/node_impl.rs and src/shared/rc_cell.rs

    A [RefNode] (an [Rc<RefCell<NodeImpl>>]) is an identity; the heap maps live identities to their
    contents.  [RefNode] equality is pointer equality (rc_cell.rs 32-37), here equality of
    identities.  A [WeakRefNode] is an identity as well; upgrading it succeeds exactly while the
    identity is alive. *)
From Verif Require Export ConfigModel.

(** src/level2/traits.rs, [NodeType] (1853-1885). *)
Inductive node_type :=
| NElement | NAttribute | NText | NCData | NEntityReference | NEntity | NProcessingInstruction
| NComment | NDocument | NDocumentType | NDocumentFragment | NNotation.
#[global] Instance node_type_eq_dec : EqDecision node_type. Proof. solve_decision. Defined.
Definition type_eqb (a b : node_type) : bool := bool_decide (a = b).

(** node_impl.rs 40-72.  A [HashMap] is an association list without repeated keys (insertion replaces
    in place or adds); its iteration order is not that of the list but the one of the environment. *)
Inductive extension :=
| XNone
| XAttribute (owner_element : option id)
| XDocument (decl : option xml_decl) (doc_type : option id) (id_map : list (str * id)) (opts : options)
| XDocumentType (entities notations : list (Name * id)) (public_id system_id internal_subset : option str)
| XElement (attributes : list (Name * id)) (namespaces : list (option str * str))
| XEntity (public_id system_id notation_name : option str)
| XNotation (public_id system_id : option str).

(** node_impl.rs 81-89. *)
Record node := mkNode {
  n_type : node_type;
  n_name : Name;
  n_value : option str;
  n_parent : option id;   (* Option<WeakRefNode> *)
  n_owner : option id;    (* Option<WeakRefNode> *)
  n_children : list id;   (* Vec<RefNode> *)
  n_ext : extension }.

Definition set_value (v : option str) (n : node) : node :=
  mkNode (n_type n) (n_name n) v (n_parent n) (n_owner n) (n_children n) (n_ext n).
Definition set_parent (p : option id) (n : node) : node :=
  mkNode (n_type n) (n_name n) (n_value n) p (n_owner n) (n_children n) (n_ext n).
Definition set_owner (o : option id) (n : node) : node :=
  mkNode (n_type n) (n_name n) (n_value n) (n_parent n) o (n_children n) (n_ext n).
Definition set_children (l : list id) (n : node) : node :=
  mkNode (n_type n) (n_name n) (n_value n) (n_parent n) (n_owner n) l (n_ext n).
Definition set_ext (x : extension) (n : node) : node :=
  mkNode (n_type n) (n_name n) (n_value n) (n_parent n) (n_owner n) (n_children n) x.

(** ** Hash maps as association lists *)
Section assoc.
  Context {K V : Type} `{EqDecision K}.
  Fixpoint hm_get (k : K) (m : list (K * V)) : option V :=
    match m with
    | [] => None
    | (k', v) :: t => if bool_decide (k' = k) then Some v else hm_get k t
    end.
  Fixpoint hm_insert (k : K) (v : V) (m : list (K * V)) : list (K * V) :=
    match m with
    | [] => [(k, v)]
    | (k', v') :: t => if bool_decide (k' = k) then (k', v) :: t else (k', v') :: hm_insert k v t
    end.
  Fixpoint hm_remove (k : K) (m : list (K * V)) : list (K * V) :=
    match m with
    | [] => []
    | (k', v') :: t => if bool_decide (k' = k) then t else (k', v') :: hm_remove k t
    end.
End assoc.

(** [Iterator::find]. *)
Fixpoint find_first {A} (p : A -> bool) (l : list A) : option A :=
  match l with
  | [] => None
  | x :: t => if p x then Some x else find_first p t
  end.

(** ** The heap *)
Record heap := mkHeap { h_nodes : gmap nat node; h_next : nat }.
Definition empty_heap : heap := mkHeap ∅ 0.

(** A computation: it may change the heap even when it fails. *)
Definition M (A : Type) := heap -> heap * res A.
Definition ret {A} (a : A) : M A := fun h => (h, Ok a).
Definition fail {A} (e : error) : M A := fun h => (h, Err e).
Definition panic_ {A} (p : panic) : M A := fun h => (h, Panic p).
Definition bind {A B} (m : M A) (k : A -> M B) : M B := fun h =>
  match m h with
  | (h', Ok a) => k a h'
  | (h', Err e) => (h', Err e)
  | (h', Panic p) => (h', Panic p)
  | (h', Diverge) => (h', Diverge)
  end.
Notation "'do?' x ':=' m 'in' k" := (bind m (fun x => k))
  (at level 200, x pattern, right associativity).
(** A read. *)
Definition lift {A} (r : heap -> res A) : M A := fun h => (h, r h).
Fixpoint mapM_ {A B} (f : A -> M B) (l : list A) : M (list B) :=
  match l with
  | [] => ret []
  | x :: t => do? y := f x in do? ys := mapM_ f t in ret (y :: ys)
  end.
Fixpoint iterM {A} (f : A -> M unit) (l : list A) : M unit :=
  match l with
  | [] => ret tt
  | x :: t => do? _ := f x in iterM f t
  end.
(** [match m { Ok(x) => .., Err(_) => panic!() }] *)
Definition err_to_panic {A} (p : panic) (m : M A) : M A := fun h =>
  match m h with
  | (h', Err _) => (h', Panic p)
  | r => r
  end.

(** [RefCell::borrow] on a node held by the caller. *)
Definition get_node (h : heap) (i : id) : res node :=
  match h_nodes h !! i with Some n => Ok n | None => Panic PNoHandle end.
Definition getM (i : id) : M node := lift (fun h => get_node h i).
(** [RefCell::borrow_mut]. *)
Definition modifyM (i : id) (f : node -> node) : M unit := fun h =>
  match h_nodes h !! i with
  | Some n => (mkHeap (<[i := f n]> (h_nodes h)) (h_next h), Ok tt)
  | None => (h, Panic PNoHandle)
  end.
(** [RefNode::new]. *)
Definition allocM (n : node) : M id := fun h =>
  (mkHeap (<[h_next h := n]> (h_nodes h)) (S (h_next h)), Ok (h_next h)).

(** [WeakRefCell::upgrade] (rc_cell.rs 91-93). *)
Definition alive (h : heap) (i : id) : bool :=
  match h_nodes h !! i with Some _ => true | None => false end.
Definition upgrade (h : heap) (w : option id) : option id :=
  match w with
  | Some i => if alive h i then Some i else None
  | None => None
  end.

(** ** Constructors: node_impl.rs 104-306.  They build contents; allocation is [RefNode::new]. *)
Definition new_element (owner : id) (name : Name) : node :=                                (* 104-117 *)
  mkNode NElement name None None (Some owner) [] (XElement [] []).
Definition new_text (owner : id) (data : str) : node :=                                    (* 140-150 *)
  mkNode NText name_for_text (Some data) None (Some owner) [] XNone.
Definition new_cdata (owner : id) (data : str) : node :=                                   (* 151-161 *)
  mkNode NCData name_for_cdata (Some data) None (Some owner) [] XNone.
Definition new_processing_instruction (owner : id) (target : Name) (data : option str) : node := (* 162-176 *)
  mkNode NProcessingInstruction target data None (Some owner) [] XNone.
Definition new_comment (owner : id) (data : str) : node :=                                 (* 177-187 *)
  mkNode NComment name_for_comment (Some data) None (Some owner) [] XNone.
Definition new_document (doc_type : option id) (opts : options) : node :=                  (* 188-204 *)
  mkNode NDocument name_for_document None None None [] (XDocument None doc_type [] opts).
Definition new_document_fragment (owner : id) : node :=                                    (* 205-215 *)
  mkNode NDocumentFragment name_for_document_fragment None None (Some owner) [] XNone.
Definition new_document_type (owner : option id) (name : Name) (pub sys : option str) : node := (* 216-237 *)
  mkNode NDocumentType name None owner owner [] (XDocumentType [] [] pub sys None).
Definition new_entity_reference (owner : id) (name : Name) : node :=                       (* 238-248 *)
  mkNode NEntityReference name None None (Some owner) [] XNone.
Definition new_entity (owner : option id) (name : Name) (pub sys : option str) : node :=   (* 249-268 *)
  mkNode NEntity name None None owner [] (XEntity pub sys None).
Definition new_internal_entity (owner : option id) (name : Name) (value : str) : node :=   (* 269-287 *)
  mkNode NEntity name (Some value) None owner [] (XEntity None None None).
Definition new_notation (owner : option id) (name : Name) (pub sys : option str) : node := (* 288-306 *)
  mkNode NNotation name None None owner [] (XNotation pub sys).
(** 118-139: the value becomes a Text child, which is allocated but gets no parent. *)
Definition new_attribute (owner : id) (name : Name) (value : option str) : M node :=
  do? children :=
    match value with
    | Some v => do? t := allocM (new_text owner v) in ret [t]
    | None => ret []
    end in
  ret (mkNode NAttribute name None None (Some owner) children (XAttribute None)).

(** The recursion depth allowed to a walk over the heap: one more than the number of nodes ever
    allocated, hence more than the depth of any acyclic structure. *)
Definition walk_fuel (h : heap) : nat := S (h_next h).

(** node_impl.rs 308-366 with trait_impls.rs 1066-1070: [clone_node].  Everything is copied except the
    parent (dropped) and the children (cloned or dropped); maps are copied, their node references
    shared. *)
Fixpoint clone_rec (fuel : nat) (deep : bool) (i : id) : M id :=
  match fuel with
  | O => fun h => (h, Diverge)
  | S k =>
      do? n := getM i in
      do? children := (if deep then mapM_ (clone_rec k deep) (n_children n) else ret []) in
      allocM (mkNode (n_type n) (n_name n) (n_value n) None (n_owner n) children (n_ext n))
  end.
Definition clone_node (deep : bool) (i : id) : M id := fun h => clone_rec (walk_fuel h) deep i h.
