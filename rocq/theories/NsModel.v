(** * NsModel: the read half of src/level2/ext/namespaced.rs *)
From Verif Require Export DomOps.

(** namespaced.rs 21-28 *)
Inductive ns_prefix := PfxNone | PfxDefault | PfxSome (p : str).

(** The element's own mappings, as seen by 106-116 and 124-135. *)
Definition own_namespaces (n : node) : list (option str * str) :=
  if is_type NElement n then match n_ext n with XElement _ ns => ns | _ => [] end else [].

(** namespaced.rs 101-117 *)
Definition contains_mapping (h : heap) (i : id) (p : option str) : res bool :=
  let? b := add_namespaces h i in
  if negb b then Ok false else
  let? n := get_node h i in
  Ok match hm_get p (own_namespaces n) with Some _ => true | None => false end.
(** namespaced.rs 119-136 *)
Definition get_namespace (h : heap) (i : id) (p : option str) : res (option str) :=
  let? b := add_namespaces h i in
  if negb b then Ok None else
  let? n := get_node h i in
  Ok (hm_get p (own_namespaces n)).
(** namespaced.rs 138-156; uses the raw parent link (also of attributes) and [expect]s it to be alive *)
Fixpoint resolve_namespace_rec (fuel : nat) (h : heap) (i : id) (p : option str) : res (option str) :=
  match fuel with
  | O => Diverge
  | S k =>
      let? b := add_namespaces h i in
      if negb b then Ok None else
      let? r := get_namespace h i p in
      match r with
      | Some u => Ok (Some u)
      | None =>
          let? n := get_node h i in
          match n_parent n with
          | None => Ok None
          | Some q => if alive h q then resolve_namespace_rec k h q p else Panic PUnwrap
          end
      end
  end.
Definition resolve_namespace (h : heap) (i : id) (p : option str) : res (option str) :=
  resolve_namespace_rec (walk_fuel h) h i p.
(** namespaced.rs 162-184 *)
Definition get_prefix (E : env) (h : heap) (i : id) (uri : str) : res ns_prefix :=
  let? b := add_namespaces h i in
  if negb b then Ok PfxNone else
  let? n := get_node h i in
  Ok match find_first (fun kv => str_eqb kv.2 uri) (e_ord_ns E (own_namespaces n)) with
     | None => PfxNone
     | Some (Some k, _) => PfxSome k
     | Some (None, _) => PfxDefault
     end.
(** namespaced.rs 158-160 *)
Definition contains_mapped_namespace (E : env) (h : heap) (i : id) (uri : str) : res bool :=
  let? r := get_prefix E h i uri in Ok match r with PfxNone => false | _ => true end.
(** namespaced.rs 186-204 *)
Fixpoint resolve_prefix_rec (fuel : nat) (E : env) (h : heap) (i : id) (uri : str) : res ns_prefix :=
  match fuel with
  | O => Diverge
  | S k =>
      let? b := add_namespaces h i in
      if negb b then Ok PfxNone else
      let? r := get_prefix E h i uri in
      match r with
      | PfxNone =>
          let? n := get_node h i in
          match n_parent n with
          | None => Ok PfxNone
          | Some q => if alive h q then resolve_prefix_rec k E h q uri else Panic PUnwrap
          end
      | _ => Ok r
      end
  end.
Definition resolve_prefix (E : env) (h : heap) (i : id) (uri : str) : res ns_prefix :=
  resolve_prefix_rec (walk_fuel h) E h i uri.
