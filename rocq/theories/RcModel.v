(** * RcModel: counted references (src/shared/rc_cell.rs, over [std::rc::Rc] and [Weak])

    A state is a heap and, per node, the number of its [Rc]s: those the program has, and those stored in nodes. *)
From Verif Require Export History.

Record rc := mkRc { rc_heap : heap; rc_count : id -> nat }.
Definition set_count (i : id) (k : nat) (c : id -> nat) : id -> nat := fun j => if decide (j = i) then k else c j.

(** [Clone for RcRefCell], rc_cell.rs 24-30. *)
Definition rc_clone (i : id) (s : rc) : rc := mkRc (rc_heap s) (set_count i (S (rc_count s i)) (rc_count s)).
(** [WeakRefCell::upgrade], 91-93: there is a value as long as there is an [Rc]. *)
Definition rc_upgrade (i : id) (s : rc) : option rc :=
  match rc_count s i with O => None | S _ => Some (rc_clone i s) end.

(** [Drop for Rc]: one [Rc] less of each node in [todo].  With the last one the node goes, and the [Rc]s stored in it are dropped in the order
    of the fields of [NodeImpl] (node_impl.rs 81-89): child nodes, then the extension.  [None]: an [Rc] of a node that is gone, or not enough fuel. *)
Fixpoint release (fuel : nat) (todo : list id) (s : rc) : option rc :=
  match fuel with
  | O => None
  | S k =>
      match todo with
      | [] => Some s
      | i :: t =>
          match rc_count s i, h_nodes (rc_heap s) !! i with
          | 1, Some n =>
              release k (strong_refs n ++ t) (mkRc (mkHeap (delete i (h_nodes (rc_heap s))) (h_next (rc_heap s))) (set_count i 0 (rc_count s)))
          | S (S m), Some _ => release k t (mkRc (rc_heap s) (set_count i (S m) (rc_count s)))
          | _, _ => None
          end
      end
  end.
(** Enough for any number of nodes: one for every node and every [Rc] in it, for the [Rc] dropped, and for the end. *)
Definition release_fuel (h : heap) : nat :=
  2 + list_sum (map (fun p : id * node => S (length (strong_refs p.2))) (map_to_list (h_nodes h))).
Definition rc_drop (i : id) (s : rc) : option rc := release (release_fuel (rc_heap s)) [i] s.

(** [RcRefCell::unwrap], 52-57: [Rc::try_unwrap] hands out the value if this is its only [Rc]; what is stored in the value goes with it.
    Otherwise a panic, whose unwinding drops the [Rc]. *)
Inductive unwrapped := Value (n : node) (s : rc) | UnwrapPanic (s : option rc).
Definition rc_unwrap (i : id) (s : rc) : unwrapped :=
  match rc_count s i, h_nodes (rc_heap s) !! i with
  | 1, Some n => Value n (mkRc (mkHeap (delete i (h_nodes (rc_heap s))) (h_next (rc_heap s))) (set_count i 0 (rc_count s)))
  | _, _ => UnwrapPanic (rc_drop i s)
  end.
