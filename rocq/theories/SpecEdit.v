(** * SpecEdit: editing an abstract document at a place *)
From Verif Require Export SpecShow SpecTree SpecFrame.

(** [path h r w p]: going down from [r] by the child positions [w] leads to [p]. *)
Inductive path (h : heap) : id -> list nat -> id -> Prop :=
| path_here i : path h i [] i
| path_down i l k c w p : child_nodes h i = Ok l -> l !! k = Some c -> path h c w p -> path h i (k :: w) p.
(** ... and it is the only way down from [r] to [p]. *)
Definition sole_path (h : heap) (r : id) (w : list nat) (p : id) : Prop :=
  path h r w p /\ forall w', path h r w' p -> w' = w.

(** What an element, a document or a fragment contains; the others contain nothing. *)
Definition over_kids (f : list xml -> list xml) (x : xml) : xml :=
  match x with
  | XmlElement n a ks => XmlElement n a (f ks)
  | XmlDocument d t ks => XmlDocument d t (f ks)
  | XmlFragment ks => XmlFragment (f ks)
  | _ => x
  end.
Definition kids_of (x : xml) : list xml :=
  match x with XmlElement _ _ ks | XmlDocument _ _ ks | XmlFragment ks => ks | _ => [] end.
Fixpoint at_nth {A} (k : nat) (f : A -> A) (l : list A) : list A :=
  match l, k with
  | [], _ => []
  | x :: t, 0 => f x :: t
  | x :: t, S k => x :: at_nth k f t
  end.
(** [f] applied at the place [w]. *)
Fixpoint edit (w : list nat) (f : xml -> xml) (x : xml) : xml :=
  match w with
  | [] => f x
  | k :: w => over_kids (at_nth k (edit w f)) x
  end.

Definition put_at (k : nat) (x : xml) (ks : list xml) : list xml := take k ks ++ x :: drop k ks.
Definition cut_at (k : nat) (ks : list xml) : list xml := take k ks ++ drop (S k) ks.
Definition with_value (v : option str) (x : xml) : xml :=
  match x with
  | XmlText _ => XmlText v
  | XmlCData _ => XmlCData v
  | XmlComment _ => XmlComment v
  | XmlPI t _ => XmlPI t v
  | XmlEntity n p s x _ => XmlEntity n p s x v
  | _ => x
  end.
(** The calls that change the text of a node. *)
Definition edits_text (o : op) (i : id) : Prop :=
  match o with
  | OSetNodeValue j _ | OUnsetNodeValue j | OAppendData j _ | OInsertData j _ _ | ODeleteData j _ _ | OReplaceData j _ _ _ => j = i
  | _ => False
  end.
(** [i] is not part of the value of an attribute. *)
Definition outside_attributes (h : heap) (i : id) : Prop :=
  forall a l, node_type_of h a = Ok NAttribute -> child_nodes h a = Ok l -> ~ In i l.
(** [c] is listed for the first time at position [k]. *)
Definition first_at {A} (c : A) (l : list A) (k : nat) : Prop := l !! k = Some c /\ forall j, (j < k)%nat -> l !! j <> Some c.
Definition place_of {A} (r : option A) (l : list A) (k : nat) : Prop :=
  match r with None => k = length l | Some y => first_at y l k end.

(** Attributes of an element. *)
Definition over_attrs (f : list (str * str) -> list (str * str)) (x : xml) : xml :=
  match x with XmlElement n avs ks => XmlElement n (f avs) ks | _ => x end.
(** [n] set to [v]: in the place of the old value, or last. *)
Fixpoint set_attr (n v : str) (avs : list (str * str)) : list (str * str) :=
  match avs with
  | [] => [(n, v)]
  | (m, u) :: t => if str_eqb m n then (n, v) :: t else (m, u) :: set_attr n v t
  end.
(** Without [n]. *)
Definition drop_attr (n : str) (avs : list (str * str)) : list (str * str) := List.filter (fun q => negb (str_eqb q.1 n)) avs.
(** The calls that change the attributes of an element. *)
Definition edits_attributes (o : op) (e : id) : Prop :=
  match o with
  | OSetAttribute j _ _ | OSetAttributeNs j _ _ _ | OSetAttributeNode j _ | ORemoveAttribute j _ | ORemoveAttributeNs j _ _
  | ORemoveAttributeNode j _ => j = e
  | _ => False
  end.
(** The calls that change the value of an attribute. *)
Definition edits_value (o : op) (a : id) : Prop :=
  match o with OAttrSetValue b _ | OAttrUnsetValue b => b = a | _ => False end.
(** Of all elements only [e] has the attribute [a]. *)
Definition only_holder (h : heap) (e a : id) : Prop := forall i l k, attributes h i = Ok l -> In (k, a) l -> i = e.
