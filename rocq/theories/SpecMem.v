(** * SpecMem: reference counting (C73) *)
From Verif Require Export SpecTree.

(** The node [i] holds an [Rc] of the node [j]: as a child, as an attribute, as the document type. *)
Definition owns (h : heap) (i j : id) : Prop :=
  child h i j \/ (exists l k, attributes h i = Ok l /\ In (k, j) l) \/ doc_type h i = Ok (Some j).

(** One node is freed: no node holds it, and the program, which has the handles [H], does not either.  The [Rc]s it held are gone with it. *)
Definition without (i : id) (h : heap) : heap := mkHeap (delete i (h_nodes h)) (h_next h).
Definition frees (H : list id) (h h' : heap) : Prop :=
  exists i, alive h i = true /\ ~ In i H /\ (forall j, ~ owns h j i) /\ h' = without i h.
(** What reference counting ends with. *)
Definition collected (H : list id) (h h' : heap) : Prop := rtc (frees H) h h' /\ forall h2, ~ frees H h' h2.

(** Held by the program, directly or not; or by a cycle. *)
Definition in_use (H : list id) (h : heap) (i : id) : Prop := exists r, In r H /\ alive h r = true /\ rtc (owns h) r i.
Definition leaked (h : heap) (i : id) : Prop := exists c, tc (owns h) c c /\ rtc (owns h) c i.
