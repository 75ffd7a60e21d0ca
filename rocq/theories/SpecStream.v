(** * SpecStream: what more events may do to what has been read, and the nodes events cost *)
From Verif Require Export SpecParse.

(** Reading on only adds to a node: children at the end, and to a document also ids at the end and a
    declaration it lacked. *)
Inductive extended : extension -> extension -> Prop :=
| xt_same x : extended x x
| xt_document D D' dt m more o : (D = None \/ D' = D) -> extended (XDocument D dt m o) (XDocument D' dt (m ++ more) o).
Record continued (n n' : node) : Prop := {
  ct_type : n_type n' = n_type n;
  ct_name : n_name n' = n_name n;
  ct_value : n_value n' = n_value n;
  ct_parent : n_parent n' = n_parent n;
  ct_owner : n_owner n' = n_owner n;
  ct_children : exists more, n_children n' = n_children n ++ more;
  ct_ext : extended (n_ext n) (n_ext n') }.

(** One node for an event that is an item, two more for each attribute of a tag. *)
Definition cost (ev : event) : nat :=
  match ev with
  | EStart _ l | EEmpty _ l => 1 + 2 * length l
  | EComment _ | EPI _ | EText _ | ECData _ => 1
  | EDecl _ _ _ | EEnd | EDocType | EError => 0
  end.
Definition costs (l : list event) : nat := list_sum (map cost l).
