(** * SpecData: what the character-data calls should do, over byte cuts of strings *)
From Verif Require Export SpecText.

(** The node [i] stores the value [v]. *)
Definition holds (h : heap) (i : id) (v : str) : Prop :=
  exists n, h_nodes h !! i = Some n /\ n_value n = Some v.
Definition holds_none (h : heap) (i : id) : Prop :=
  exists n, h_nodes h !! i = Some n /\ n_value n = None.
(** A Rust string is shorter than [usize::MAX] bytes. *)
Definition fits (v : str) : Prop := (blen v < usize_mod)%N.
(** Byte [k] of [v] is a character boundary. *)
Definition boundary (v : str) (k : N) : Prop := exists l r, v = l ++ r /\ blen l = k.

(** [h'] is [h] except that the value of [i] is now [v]: same identities, and every other field of
    every node is as before. *)
Definition only_value_changed (h h' : heap) (i : id) (v : option str) : Prop :=
  h_next h' = h_next h /\
  (forall j, j <> i -> h_nodes h' !! j = h_nodes h !! j) /\
  exists n n', h_nodes h !! i = Some n /\ h_nodes h' !! i = Some n' /\ n_value n' = v /\
    n_type n' = n_type n /\ n_name n' = n_name n /\ n_parent n' = n_parent n /\
    n_owner n' = n_owner n /\ n_children n' = n_children n /\ n_ext n' = n_ext n.
