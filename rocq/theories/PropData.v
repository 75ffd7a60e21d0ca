(** * C16-C19, C21: character data *)
From Coq Require Import Lia.
From Verif Require Import SpecData ProofText ProofData PropText History.

(** A text node (1) with value "héllo", a comment (2), a CDATA section (3). *)
Definition ex_data_ops : list op :=
  [OCreateDocument None None None options_new; OCreateText 0 (104%N :: 233%N :: lit "llo");
   OCreateComment 0 (lit "hello"); OCreateCData 0 (lit "a<b"); OCreateText 0 (lit "a<b"); OUnsetNodeValue 4].
Definition ex_data_heap : heap := default empty_heap (run env0 ex_data_ops empty_heap).
Example ex_data_reachable : reachable ex_data_heap.
Proof. apply (run0_reachable ex_data_ops). by vm_compute. Qed.

(** ** C16.  [substring_data] takes the heap as an argument and returns no heap: it changes nothing. *)
Theorem C16_slice : forall E h i l m r, holds h i (l ++ m ++ r) -> fits (l ++ m ++ r) ->
  substring_data E h i (blen l) (blen m) = Ok m.
Proof. exact substring_slice. Qed.
Print Assumptions C16_slice.
Theorem C16_clipped : forall E h i l m k, holds h i (l ++ m) -> m <> [] -> (blen m <= k)%N -> (blen l + k < usize_mod)%N ->
  substring_data E h i (blen l) k = Ok m.
Proof. exact substring_clip. Qed.
Print Assumptions C16_clipped.
Theorem C16_empty : forall E h i o, (o < usize_mod)%N -> substring_data E h i o 0 = Ok [].
Proof. exact substring_zero. Qed.
Print Assumptions C16_empty.
Theorem C16_index_size : forall E h i o k, (0 < k)%N -> (o + k < usize_mod)%N ->
  (forall v, holds h i v -> (blen v <= o)%N -> substring_data E h i o k = Err IndexSize) /\
  (holds_none h i -> substring_data E h i o k = Err IndexSize).
Proof. intros E h i o k Hk Hf. split; [|intros H; by apply substring_no_value]. intros v Hv Ho. by eapply substring_past. Qed.
Print Assumptions C16_index_size.
Theorem C16_inside_character : forall E h i v o k, holds h i v -> (0 < k)%N -> (o < blen v)%N -> (o + k < usize_mod)%N ->
  ~ boundary v o \/ (o + k < blen v)%N /\ ~ boundary v (o + k) ->
  substring_data E h i o k = Panic PSlice.
Proof. exact substring_cut_panics. Qed.
Print Assumptions C16_inside_character.
(** These are all the cases in which offset + count does not overflow (for that see C19). *)
Theorem C16_exhaustive : forall v o k,
  k = 0%N \/ (blen v <= o)%N
  \/ (exists l m r, v = l ++ m ++ r /\ blen l = o /\ blen m = k)
  \/ (exists l m, v = l ++ m /\ m <> [] /\ blen l = o /\ (blen m <= k)%N)
  \/ (o < blen v)%N /\ (~ boundary v o \/ (o + k < blen v)%N /\ ~ boundary v (o + k)).
Proof.
  intros v o k. destruct (N.leb_spec (blen v) o) as [|Ho]; [by auto|].
  destruct (split_at v o) as [[l x]|] eqn:H1.
  - apply split_at_inv in H1 as [Hv Hl]. destruct (N.leb_spec (blen v) (o + k)) as [He|He].
    + right. right. right. left. exists l, x. subst v. rewrite blen_app in *. repeat split; try done; [|lia].
      intros ->. cbn in *. lia.
    + destruct (split_at v (o + k)) as [[y r]|] eqn:H2.
      * right. right. left. apply split_at_inv in H2 as [Hv2 Hy].
        assert (Hb : boundary y o).
        { apply (boundary_mono v o (o + k) y r); [rewrite <- Hy; subst v; rewrite Hv2; apply split_at_app|lia|by exists l, x]. }
        destruct Hb as (l' & m & -> & Hl'). exists l', m, r. rewrite <- app_assoc in Hv2. rewrite blen_app in Hy.
        repeat split; try done. lia.
      * right. right. right. right. split; [done|]. right. split; [done|]. by apply split_at_none.
  - right. right. right. right. split; [done|]. left. by apply split_at_none.
Qed.
Print Assumptions C16_exhaustive.
Example C16_example : substring_data env0 ex_data_heap 1 1 2 = Ok [233%N] /\ substring_data env0 ex_data_heap 1 3 99 = Ok (lit "llo")
  /\ substring_data env0 ex_data_heap 1 2 2 = Panic PSlice /\ substring_data env0 ex_data_heap 1 6 1 = Err IndexSize
  /\ substring_data env0 ex_data_heap 4 0 1 = Err IndexSize /\ substring_data env0 ex_data_heap 1 77 0 = Ok [].
Proof. by vm_compute. Qed.
Example C16_hypotheses : holds ex_data_heap 1 ([104%N] ++ [233%N] ++ lit "llo") /\ fits ([104%N] ++ [233%N] ++ lit "llo")
  /\ ~ boundary (104%N :: 233%N :: lit "llo") 2.
Proof. split; [by eexists|]. split; [done|]. apply split_at_none. by vm_compute. Qed.

(** ** C17 *)
Theorem C17_replace : forall E h i l m r x, holds h i (l ++ m ++ r) -> m ++ r <> [] -> fits (l ++ m ++ r) ->
  exists h', replace_data E i (blen l) (blen m) x h = (h', Ok tt) /\ only_value_changed h h' i (Some (l ++ x ++ r)).
Proof.
  intros E h i l m r x (n & Hn & Hv) Hne Hf. rewrite (replace_data_eq E h i n) by done.
  rewrite Hv, replace_value_slice by done. eexists. split; [done|]. by apply put_value_only.
Qed.
Print Assumptions C17_replace.
Theorem C17_replace_clipped : forall E h i l m k x, holds h i (l ++ m) -> m <> [] -> (blen m <= k)%N -> (blen l + k < usize_mod)%N ->
  exists h', replace_data E i (blen l) k x h = (h', Ok tt) /\ only_value_changed h h' i (Some (l ++ x)).
Proof.
  intros E h i l m k x (n & Hn & Hv) Hne Hk Hf. rewrite (replace_data_eq E h i n) by done.
  rewrite Hv, replace_value_clip by done. eexists. split; [done|]. by apply put_value_only.
Qed.
Print Assumptions C17_replace_clipped.
Theorem C17_replace_past_end : forall E h i v o k x, holds h i v -> (blen v <= o)%N ->
  replace_data E i o k x h = (h, Err IndexSize).
Proof. intros E h i v o k x (n & Hn & Hv) Ho. by rewrite (replace_data_eq E h i n), Hv, replace_value_past by done. Qed.
Print Assumptions C17_replace_past_end.
Theorem C17_replace_no_value : forall E h i o k x, holds_none h i -> (o + k < usize_mod)%N ->
  (o = 0%N -> k = 0%N -> exists h', replace_data E i o k x h = (h', Ok tt) /\ only_value_changed h h' i (Some x)) /\
  ((0 < o + k)%N -> replace_data E i o k x h = (h, Err IndexSize)).
Proof.
  intros E h i o k x (n & Hn & Hv) Hf. rewrite (replace_data_eq E h i n) by done. rewrite Hv. unfold replace_value.
  rewrite usize_add_fits by done. cbn [rbind]. split.
  - intros -> ->. cbn. eexists. split; [done|]. by apply put_value_only.
  - intros H. by destruct (N.eqb_spec (o + k) 0); [lia|].
Qed.
Print Assumptions C17_replace_no_value.
Theorem C17_replace_inside_character : forall E h i v o k x, holds h i v -> (o < blen v)%N -> (o + k < usize_mod)%N ->
  ~ boundary v o \/ (o + k < blen v)%N /\ ~ boundary v (o + k) ->
  replace_data E i o k x h = (h, Panic PSlice).
Proof. intros E h i v o k x (n & Hn & Hv) Ho Hf Hb. by rewrite (replace_data_eq E h i n), Hv, replace_value_cut by done. Qed.
Print Assumptions C17_replace_inside_character.
Theorem C17_insert : forall E h i l r x, holds h i (l ++ r) -> r <> [] -> fits (l ++ r) -> x <> [] ->
  exists h', insert_data E i (blen l) x h = (h', Ok tt) /\ only_value_changed h h' i (Some (l ++ x ++ r)).
Proof.
  intros E h i l r x Hh Hr Hf Hx. rewrite insert_data_eq by done. change 0%N with (blen []).
  by apply (C17_replace E h i l [] r x).
Qed.
Print Assumptions C17_insert.
Theorem C17_insert_nothing : forall E h i o, insert_data E i o [] h = (h, Ok tt).
Proof. done. Qed.
Print Assumptions C17_insert_nothing.
(** In particular at the very end, and anywhere in an empty value. *)
Theorem C17_insert_past_end : forall E h i v o x, holds h i v -> (blen v <= o)%N -> x <> [] ->
  insert_data E i o x h = (h, Err IndexSize).
Proof. intros E h i v o x Hh Ho Hx. rewrite insert_data_eq by done. by eapply C17_replace_past_end. Qed.
Print Assumptions C17_insert_past_end.
Theorem C17_delete : forall E h i l m r, holds h i (l ++ m ++ r) -> m <> [] -> fits (l ++ m ++ r) ->
  exists h', delete_data E i (blen l) (blen m) h = (h', Ok tt) /\ only_value_changed h h' i (Some (l ++ r)).
Proof.
  intros E h i l m r Hh Hm Hf. pose proof (blen_pos m Hm). unfold fits in Hf. rewrite !blen_app in Hf.
  rewrite delete_data_eq by lia. apply (C17_replace E h i l m r []); [done| |unfold fits; rewrite !blen_app; lia].
  by destruct m.
Qed.
Print Assumptions C17_delete.
Theorem C17_delete_clipped : forall E h i l m k, holds h i (l ++ m) -> m <> [] -> (blen m <= k)%N -> (blen l + k < usize_mod)%N ->
  exists h', delete_data E i (blen l) k h = (h', Ok tt) /\ only_value_changed h h' i (Some l).
Proof.
  intros E h i l m k Hh Hm Hk Hf. pose proof (blen_pos m Hm). rewrite delete_data_eq by lia.
  destruct (C17_replace_clipped E h i l m k [] Hh Hm Hk Hf) as (h' & H1 & H2). rewrite app_nil_r in H2. eauto.
Qed.
Print Assumptions C17_delete_clipped.
Theorem C17_delete_nothing : forall E h i o, (o < usize_mod)%N -> delete_data E i o 0 h = (h, Ok tt).
Proof. exact delete_data_zero. Qed.
Print Assumptions C17_delete_nothing.
Theorem C17_delete_past_end : forall E h i v o k, holds h i v -> (blen v <= o)%N -> (0 < k)%N -> (o + k < usize_mod)%N ->
  delete_data E i o k h = (h, Err IndexSize).
Proof. intros E h i v o k Hh Ho Hk Hf. rewrite delete_data_eq by done. by eapply C17_replace_past_end. Qed.
Print Assumptions C17_delete_past_end.
Theorem C17_append : forall h i x,
  (forall v, holds h i v -> exists h', append_data i x h = (h', Ok tt) /\ only_value_changed h h' i (Some (v ++ x))) /\
  (holds_none h i -> exists h', append_data i x h = (h', Ok tt) /\
     only_value_changed h h' i (match x with [] => None | _ => Some x end)).
Proof.
  intros h i x. unfold append_data, modifyM. split.
  - intros v (n & Hn & Hv). destruct x as [|c x].
    + exists h. split; [done|]. split; [done|]. split; [done|]. exists n, n. rewrite app_nil_r. done.
    + cbn [is_nil]. rewrite Hn, Hv. eexists. split; [done|]. by apply put_value_only.
  - intros (n & Hn & Hv). destruct x as [|c x].
    + exists h. split; [done|]. split; [done|]. split; [done|]. by exists n, n.
    + cbn [is_nil]. rewrite Hn, Hv. eexists. split; [done|]. by apply put_value_only.
Qed.
Print Assumptions C17_append.
Example C17_example :
  (exists h', replace_data env0 2 1 3 (lit "XY") ex_data_heap = (h', Ok tt) /\ node_value h' 2 = Ok (Some (lit "hXYo")))
  /\ (exists h', insert_data env0 2 4 (lit "XY") ex_data_heap = (h', Ok tt) /\ node_value h' 2 = Ok (Some (lit "hellXYo")))
  /\ (exists h', insert_data env0 2 5 (lit "XY") ex_data_heap = (h', Err IndexSize))
  /\ (exists h', delete_data env0 2 2 99 ex_data_heap = (h', Ok tt) /\ node_value h' 2 = Ok (Some (lit "he")))
  /\ holds ex_data_heap 2 (lit "h" ++ lit "ell" ++ lit "o").
Proof. repeat split; eexists; by vm_compute. Qed.

(** ** C18 *)
(** The whole heap is back to what it was. *)
Theorem C18_insert_delete : forall E h i l r x, holds h i (l ++ r) -> r <> [] -> x <> [] -> fits (l ++ x ++ r) ->
  exists h1, insert_data E i (blen l) x h = (h1, Ok tt) /\ delete_data E i (blen l) (blen x) h1 = (h, Ok tt).
Proof.
  intros E h i l r x (n & Hn & Hv) Hr Hx Hf.
  exists (put_value h i n (Some (l ++ x ++ r))). split.
  - rewrite insert_data_eq by done. rewrite (replace_data_eq E h i n) by done. rewrite Hv.
    change 0%N with (blen []). change (l ++ r) with (l ++ [] ++ r). rewrite replace_value_slice; [done|done|].
    unfold fits in *. rewrite !blen_app in *. cbn. lia.
  - pose proof (blen_pos x Hx). unfold fits in Hf. rewrite !blen_app in Hf. rewrite delete_data_eq by lia.
    rewrite (replace_data_eq E _ i (set_value (Some (l ++ x ++ r)) n)) by (cbn; by rewrite lookup_insert).
    cbn [n_value set_value]. rewrite replace_value_slice; [|by destruct x|unfold fits; rewrite !blen_app; lia].
    rewrite put_put. cbn [app]. rewrite <- Hv, put_id by done. done.
Qed.
Print Assumptions C18_insert_delete.
Theorem C18_insert_substring : forall E h i l r x, holds h i (l ++ r) -> r <> [] -> x <> [] -> fits (l ++ x ++ r) ->
  exists h1, insert_data E i (blen l) x h = (h1, Ok tt) /\ substring_data E h1 i (blen l) (blen x) = Ok x.
Proof.
  intros E h i l r x Hh Hr Hx Hf.
  destruct (C17_insert E h i l r x) as (h1 & H1 & (_ & _ & n & n' & _ & Hn' & Hv & _)); try done.
  { unfold fits in *. rewrite !blen_app in *. lia. }
  exists h1. split; [done|]. apply (substring_slice E h1 i l x r); [by exists n'|done].
Qed.
Print Assumptions C18_insert_substring.
Theorem C18_delete_insert : forall E h i l m r, holds h i (l ++ m ++ r) -> m <> [] -> r <> [] -> fits (l ++ m ++ r) ->
  exists h1, delete_data E i (blen l) (blen m) h = (h1, Ok tt) /\ insert_data E i (blen l) m h1 = (h, Ok tt).
Proof.
  intros E h i l m r (n & Hn & Hv) Hm Hr Hf. pose proof (blen_pos m Hm). pose proof Hf as Hf'. unfold fits in Hf. rewrite !blen_app in Hf.
  exists (put_value h i n (Some (l ++ r))). split.
  - rewrite delete_data_eq by lia. rewrite (replace_data_eq E h i n) by done. rewrite Hv.
    by rewrite replace_value_slice; [|destruct m|].
  - rewrite insert_data_eq by done.
    rewrite (replace_data_eq E _ i (set_value (Some (l ++ r)) n)) by (cbn; by rewrite lookup_insert).
    cbn [n_value set_value]. change 0%N with (blen []). change (l ++ r) with (l ++ [] ++ r).
    rewrite replace_value_slice; [|done|unfold fits; rewrite !blen_app; cbn; lia].
    by rewrite put_put, <- Hv, put_id.
Qed.
Print Assumptions C18_delete_insert.
(** After a deletion up to the end the text cannot be inserted again. *)
Theorem C18_delete_tail_insert : forall E h i l m, holds h i (l ++ m) -> m <> [] -> fits (l ++ m) ->
  exists h1, delete_data E i (blen l) (blen m) h = (h1, Ok tt) /\ insert_data E i (blen l) m h1 = (h1, Err IndexSize).
Proof.
  intros E h i l m Hh Hm Hf.
  destruct (C17_delete E h i l m []) as (h1 & H1 & (_ & _ & n & n' & _ & Hn' & Hv & _)); rewrite ?app_nil_r in *; try done.
  exists h1. split; [done|]. eapply C17_insert_past_end; [by exists n'|lia|done].
Qed.
Print Assumptions C18_delete_tail_insert.
Example C18_example : holds ex_data_heap 2 (lit "he" ++ lit "llo") /\
  match insert_data env0 2 2 (lit "ZZ") ex_data_heap with
  | (h1, Ok _) => node_value h1 2 = Ok (Some (lit "heZZllo")) /\ substring_data env0 h1 2 2 2 = Ok (lit "ZZ")
  | _ => False end.
Proof. split; [by eexists|by vm_compute]. Qed.

(** ** C19 *)
Theorem C19_checked_overflow : forall E h i o k x, e_checked E = true -> (usize_mod <= o + k)%N ->
  substring_data E h i o k = Panic POverflow /\ delete_data E i o k h = (h, Panic POverflow) /\
  (forall v, holds h i v -> (o < blen v)%N -> replace_data E i o k x h = (h, Panic POverflow)) /\
  (holds_none h i -> replace_data E i o k x h = (h, Panic POverflow)).
Proof.
  intros E h i o k x Hc Ho. assert (Hu : usize_add (e_checked E) o k = Panic POverflow).
  { unfold usize_add. rewrite Hc. by destruct (N.ltb_spec (o + k) usize_mod); [lia|]. }
  split; [unfold substring_data; by rewrite Hu|]. split; [unfold delete_data, bind, lift; by rewrite Hu|].
  split.
  - intros v (n & Hn & Hv) Hl. rewrite (replace_data_eq E h i n) by done. rewrite Hv. unfold replace_value.
    destruct (N.leb_spec (blen v) o); [lia|]. by rewrite Hu.
  - intros (n & Hn & Hv). rewrite (replace_data_eq E h i n) by done. rewrite Hv. unfold replace_value. by rewrite Hu.
Qed.
Print Assumptions C19_checked_overflow.
Theorem C19_no_overflow : forall E h i o k x, (o + k < usize_mod)%N ->
  substring_data E h i o k <> Panic POverflow /\ (delete_data E i o k h).2 <> Panic POverflow /\
  (replace_data E i o k x h).2 <> Panic POverflow.
Proof.
  intros E h i o k x Hf.
  assert (Hr : forall y, (replace_data E i o k y h).2 <> Panic POverflow).
  { intros y. destruct (h_nodes h !! i) as [n|] eqn:Hn.
    - rewrite (replace_data_eq E h i n) by done. unfold replace_value. rewrite usize_add_fits by done. cbn [rbind].
      destruct (n_value n) as [v|]; [|by destruct (_ =? _)%N].
      destruct (blen v <=? o)%N; [done|]. unfold split_at_res. destruct (blen v <=? o + k)%N.
      + by destruct (split_at v o).
      + destruct (o + k <? o)%N; [done|]. destruct (split_at v (o + k)) as [[a b]|]; [|done]. cbn [rbind fst].
        by destruct (split_at a o).
    - unfold replace_data, bind, getM, lift, get_node. by rewrite Hn. }
  split; [|split; [|done]].
  - unfold substring_data. rewrite usize_add_fits by done. cbn [rbind]. destruct (o + k =? o)%N; [done|].
    unfold get_node. destruct (h_nodes h !! i) as [n|]; [|done]. cbn [rbind]. destruct (n_value n) as [v|]; [|done].
    unfold split_at_res. destruct (blen v <=? o)%N; [done|]. destruct (blen v <=? o + k)%N; [by destruct (split_at v o)|].
    destruct (o + k <? o)%N; [done|]. destruct (split_at v (o + k)) as [[a b]|]; [|done]. cbn [rbind fst].
    by destruct (split_at a o).
  - unfold delete_data, bind, lift. rewrite usize_add_fits by done. by destruct (o + k =? o)%N.
Qed.
Print Assumptions C19_no_overflow.
(** Without checks the end wraps around to below the offset, and the slice [offset..end] panics. *)
Theorem C19_unchecked_overflow : forall E h i o k x v, e_checked E = false -> (o < usize_mod)%N -> (k < usize_mod)%N ->
  (usize_mod <= o + k)%N -> holds h i v ->
  ((o < blen v)%N -> substring_data E h i o k = Panic PSlice /\ delete_data E i o k h = (h, Panic PSlice)
     /\ replace_data E i o k x h = (h, Panic PSlice)) /\
  ((blen v <= o)%N -> substring_data E h i o k = Err IndexSize /\ delete_data E i o k h = (h, Err IndexSize)
     /\ replace_data E i o k x h = (h, Err IndexSize)).
Proof.
  intros E h i o k x v Hc Ho Hk Hov (n & Hn & Hv).
  assert (Hu : usize_add (e_checked E) o k = Ok (o + k - usize_mod)%N).
  { unfold usize_add. rewrite Hc. destruct (N.ltb_spec (o + k) usize_mod); [lia|]. f_equal.
    symmetry. apply (N.mod_unique _ _ 1); lia. }
  assert (Hne : (o + k - usize_mod =? o)%N = false) by (apply N.eqb_neq; lia).
  assert (Hr : forall y, replace_data E i o k y h = if (blen v <=? o)%N then (h, Err IndexSize) else (h, Panic PSlice)).
  { intros y. rewrite (replace_data_eq E h i n) by done. rewrite Hv. unfold replace_value.
    destruct (N.leb_spec (blen v) o); [done|]. rewrite Hu. cbn [rbind].
    destruct (N.leb_spec (blen v) (o + k - usize_mod)); [lia|].
    by destruct (N.ltb_spec (o + k - usize_mod) o); [|lia]. }
  assert (Hs : substring_data E h i o k = if (blen v <=? o)%N then Err IndexSize else Panic PSlice).
  { unfold substring_data. rewrite Hu. cbn [rbind]. rewrite Hne. unfold get_node. rewrite Hn. cbn [rbind]. rewrite Hv.
    destruct (N.leb_spec (blen v) o); [done|]. destruct (N.leb_spec (blen v) (o + k - usize_mod)); [lia|].
    by destruct (N.ltb_spec (o + k - usize_mod) o); [|lia]. }
  assert (Hd : delete_data E i o k h = replace_data E i o k [] h).
  { unfold delete_data, bind at 1, lift. rewrite Hu. by rewrite Hne. }
  rewrite Hs, Hd, !Hr. split; intros H; destruct (N.leb_spec (blen v) o); try lia; done.
Qed.
Print Assumptions C19_unchecked_overflow.
Example C19_example : substring_data env0 ex_data_heap 2 1 18446744073709551615 = Panic POverflow
  /\ substring_data (mkEnv false (e_letter env0) (e_digit env0) (fun l => l) (fun l => l)) ex_data_heap 2 1 18446744073709551615 = Panic PSlice.
Proof. by vm_compute. Qed.

(** ** C21 *)
Theorem C21_between_lengths : forall E h i n v o, h_nodes h !! i = Some n -> n_type n = NText -> n_value n = Some v ->
  (blen v <= o)%N -> (o < blen (escape v))%N -> fits (escape v) -> split E i o h = (h, Err IndexSize).
Proof.
  intros E h i n v o Hn Ht Hv Ho He Hf. unfold split, bind at 1, getM, lift, get_node. rewrite Hn.
  assert (Hcd : is_character_data n = true) by (unfold is_character_data, is_type; by rewrite Ht). rewrite Hcd. cbn [negb].
  assert (Hl : length_ h i = Ok (blen (escape v))).
  { unfold length_, data, get_node. rewrite Hn. cbn [rbind]. unfold is_type. by rewrite Ht, Hv. }
  unfold bind at 1. rewrite Hl. destruct (N.leb_spec (blen (escape v)) o); [lia|]. unfold bind at 1 2.
  rewrite (substring_past E h i v); [done|by exists n|done|lia|]. unfold fits in Hf. lia.
Qed.
Print Assumptions C21_between_lengths.
(** ... and this happens for every text with a special character: there is such an offset. *)
Theorem C21_offset_exists : forall v c, In c v -> special c -> (blen v < blen (escape v))%N.
Proof.
  intros v c Hin Hc. pose proof (escaped_blen v (escape v) (escape_escaped v)) as [H1 H2].
  destruct (N.eq_dec (blen (escape v)) (blen v)) as [E|E]; [|lia]. exfalso. symmetry in E. apply H2 in E.
  rewrite List.Forall_forall in E. by apply (E c Hin).
Qed.
Print Assumptions C21_offset_exists.
(** A comment loses its tail and the call reports an error. *)
Theorem C21_comment : forall E h i n l r, h_nodes h !! i = Some n -> n_type n = NComment -> n_value n = Some (l ++ r) ->
  (r <> []) -> fits (escape (l ++ r)) ->
  exists h', split E i (blen l) h = (h', Err Syntax) /\ only_value_changed h h' i (Some l).
Proof.
  intros E h i n l r Hn Ht Hv Hr Hf. unfold split, bind at 1, getM, lift, get_node. rewrite Hn.
  assert (Hcd : is_character_data n = true) by (unfold is_character_data, is_type; by rewrite Ht). rewrite Hcd. cbn [negb].
  assert (Hl : length_ h i = Ok (blen (escape (l ++ r)))).
  { unfold length_, data, get_node. rewrite Hn. cbn [rbind]. unfold is_type. by rewrite Ht, Hv. }
  pose proof (escaped_blen _ _ (escape_escaped (l ++ r))) as [Hge _]. pose proof (blen_pos r Hr). rewrite blen_app in Hge.
  unfold bind at 1. rewrite Hl. destruct (N.leb_spec (blen (escape (l ++ r))) (blen l)); [lia|]. unfold fits in Hf.
  assert (Hs : substring_data E h i (blen l) (blen (escape (l ++ r)) - blen l) = Ok r).
  { apply substring_clip; [by exists n|done|lia|lia]. }
  assert (Hd : delete_data E i (blen l) (blen (escape (l ++ r)) - blen l) h = (put_value h i n (Some l), Ok tt)).
  { rewrite delete_data_eq by lia. rewrite (replace_data_eq E h i n) by done. rewrite Hv.
    rewrite replace_value_clip; [by rewrite app_nil_r|done|lia|lia]. }
  unfold bind at 1 2 3. rewrite Hs, Hd. unfold ret at 1. unfold bind at 1. cbn. rewrite lookup_insert. cbn.
  unfold bind. rewrite Ht. cbn. eexists. split; [done|]. by apply put_value_only.
Qed.
Print Assumptions C21_comment.
Example C21_example :
  (exists h', split env0 2 2 ex_data_heap = (h', Err Syntax) /\ node_value h' 2 = Ok (Some (lit "he")))
  /\ (exists h, run env0 [OCreateDocument None None None options_new; OCreateText 0 (lit "a<b")] empty_heap = Some h
      /\ split env0 1 5 h = (h, Err IndexSize)).
Proof. split; eexists; (split; [by vm_compute|by vm_compute]). Qed.
