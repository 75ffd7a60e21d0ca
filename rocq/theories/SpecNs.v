(** * SpecNs: what the namespace lookups should answer *)
From Verif Require Export SpecTree NsModel.

(** Element [e] maps prefix [p] to [u] (no prefix: the default namespace). *)
Definition maps (h : heap) (e : id) (p : option str) (u : str) : Prop := exists n attrs nss,
  h_nodes h !! e = Some n /\ n_ext n = XElement attrs nss /\ In (p, u) nss.
(** The document of [i] exists and was made with the add-namespaces option. *)
Definition aware (h : heap) (i : id) : Prop := exists n d nd decl dt m o,
  h_nodes h !! i = Some n /\ n_owner n = Some d /\ h_nodes h !! d = Some nd /\ n_ext nd = XDocument decl dt m o /\
  has_add_namespaces o = true.
(** Going from a node to its parent, and so on, stops at the first node satisfying [P]; or at a node without
    a parent; or at a node whose parent has been freed. *)
Inductive ending := AtNode (j : id) | AtTop | AtGone.
Inductive climbs (h : heap) (P : id -> Prop) : id -> ending -> Prop :=
| cl_here i : P i -> climbs h P i (AtNode i)
| cl_top i n : ~ P i -> h_nodes h !! i = Some n -> n_parent n = None -> climbs h P i AtTop
| cl_gone i n q : ~ P i -> h_nodes h !! i = Some n -> n_parent n = Some q -> h_nodes h !! q = None -> climbs h P i AtGone
| cl_up i q e : ~ P i -> parent_node h i = Ok (Some q) -> climbs h P q e -> climbs h P i e.
