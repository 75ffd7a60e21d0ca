(** * ProofData: byte cuts and the character-data calls *)
From Verif Require Import History SpecData ProofText.
From Coq Require Import Lia.

(** ** Cutting strings *)
Lemma blen_nil_inv s : blen s = 0%N -> s = [].
Proof. destruct s as [|c s]; [done|]. cbn. pose proof (utf8_len_pos c). lia. Qed.
Lemma blen_pos s : s <> [] -> (0 < blen s)%N.
Proof. intros H. destruct (N.eq_0_gt_0_cases (blen s)) as [E|E]; [by apply blen_nil_inv in E|done]. Qed.
Lemma split_at_app l r : split_at (l ++ r) (blen l) = Some (l, r).
Proof.
  induction l as [|c l IH]; [by destruct r|]. cbn [app split_at blen]. pose proof (utf8_len_pos c).
  destruct (N.eqb_spec (utf8_len c + blen l) 0); [lia|].
  destruct (N.ltb_spec (utf8_len c + blen l) (utf8_len c)); [lia|].
  replace (utf8_len c + blen l - utf8_len c)%N with (blen l) by lia. by rewrite IH.
Qed.
Lemma split_at_inv s k l r : split_at s k = Some (l, r) -> s = l ++ r /\ blen l = k.
Proof.
  revert k l r. induction s as [|c s IH]; intros k l r H; cbn [split_at] in H.
  - destruct (N.eqb_spec k 0); [|done]. by injection H as <- <-.
  - destruct (N.eqb_spec k 0); [by injection H as <- <-|].
    destruct (N.ltb_spec k (utf8_len c)); [done|].
    destruct (split_at s (k - utf8_len c)) as [[l' r']|] eqn:Hs; [|done]. injection H as <- <-.
    apply IH in Hs as [-> Hb]. cbn. split; [done|]. lia.
Qed.
Lemma split_at_none s k : split_at s k = None <-> ~ boundary s k.
Proof.
  split.
  - intros H (l & r & -> & <-). by rewrite split_at_app in H.
  - intros H. destruct (split_at s k) as [[l r]|] eqn:Hs; [|done]. apply split_at_inv in Hs as [-> <-].
    destruct H. by exists l, r.
Qed.
Lemma split_at_app1 l m r : split_at (l ++ m ++ r) (blen l + blen m) = Some (l ++ m, r).
Proof. rewrite app_assoc, <- blen_app. apply split_at_app. Qed.
Lemma cut_inj a b c d : a ++ b = c ++ d -> blen a = blen c -> a = c /\ b = d.
Proof.
  intros H Hb. assert (E : split_at (a ++ b) (blen a) = split_at (c ++ d) (blen c)) by congruence.
  rewrite !split_at_app in E. by injection E.
Qed.

(** ** Reading *)
Lemma usize_add_fits b x y : (x + y < usize_mod)%N -> usize_add b x y = Ok (x + y)%N.
Proof. intros H. unfold usize_add. by destruct (N.ltb_spec (x + y) usize_mod); [|lia]. Qed.
Lemma get_holds h i v : holds h i v -> exists n, get_node h i = Ok n /\ h_nodes h !! i = Some n /\ n_value n = Some v.
Proof. intros (n & H & Hv). exists n. unfold get_node. by rewrite H. Qed.
Lemma get_holds_none h i : holds_none h i -> exists n, get_node h i = Ok n /\ h_nodes h !! i = Some n /\ n_value n = None.
Proof. intros (n & H & Hv). exists n. unfold get_node. by rewrite H. Qed.

Lemma substring_slice_lt E h i l m r : holds h i (l ++ m ++ r) -> (blen l + blen m < usize_mod)%N ->
  substring_data E h i (blen l) (blen m) = Ok m.
Proof.
  intros Hh Hf. unfold substring_data.
  rewrite usize_add_fits by lia. cbn [rbind].
  destruct (N.eqb_spec (blen l + blen m) (blen l)) as [H0|H0].
  { f_equal. symmetry. apply blen_nil_inv. lia. }
  apply get_holds in Hh as (nd & -> & _ & Hv). cbn [rbind]. rewrite Hv, !blen_app.
  destruct (N.leb_spec (blen l + (blen m + blen r)) (blen l)); [lia|].
  destruct (N.leb_spec (blen l + (blen m + blen r)) (blen l + blen m)) as [H1|H1].
  - unfold split_at_res. rewrite split_at_app. cbn. assert (Hr : r = []) by (apply blen_nil_inv; lia). subst.
    by rewrite app_nil_r.
  - destruct (N.ltb_spec (blen l + blen m) (blen l)); [lia|].
    unfold split_at_res. rewrite split_at_app1. cbn [rbind fst]. rewrite split_at_app. done.
Qed.
Lemma substring_slice E h i l m r : holds h i (l ++ m ++ r) -> fits (l ++ m ++ r) ->
  substring_data E h i (blen l) (blen m) = Ok m.
Proof. intros Hh Hf. unfold fits in Hf. rewrite !blen_app in Hf. apply (substring_slice_lt E h i l m r Hh). lia. Qed.
Lemma substring_clip E h i l m k : holds h i (l ++ m) -> m <> [] -> (blen m <= k)%N -> (blen l + k < usize_mod)%N ->
  substring_data E h i (blen l) k = Ok m.
Proof.
  intros Hh Hm Hk Hf. apply blen_pos in Hm. unfold substring_data. rewrite usize_add_fits by lia. cbn [rbind].
  destruct (N.eqb_spec (blen l + k) (blen l)); [lia|].
  apply get_holds in Hh as (nd & -> & _ & Hv). cbn [rbind]. rewrite Hv, blen_app.
  destruct (N.leb_spec (blen l + blen m) (blen l)); [lia|].
  destruct (N.leb_spec (blen l + blen m) (blen l + k)); [|lia].
  unfold split_at_res. by rewrite split_at_app.
Qed.
Lemma substring_zero E h i o : (o < usize_mod)%N -> substring_data E h i o 0 = Ok [].
Proof. intros H. unfold substring_data. rewrite usize_add_fits by lia. cbn [rbind]. by rewrite N.add_0_r, N.eqb_refl. Qed.
Lemma substring_past E h i v o k : holds h i v -> (blen v <= o)%N -> (0 < k)%N -> (o + k < usize_mod)%N ->
  substring_data E h i o k = Err IndexSize.
Proof.
  intros Hh Ho Hk Hf. unfold substring_data. rewrite usize_add_fits by lia. cbn [rbind].
  destruct (N.eqb_spec (o + k) o); [lia|]. apply get_holds in Hh as (nd & -> & _ & Hv). cbn [rbind]. rewrite Hv.
  by destruct (N.leb_spec (blen v) o); [|lia].
Qed.
Lemma substring_no_value E h i o k : holds_none h i -> (0 < k)%N -> (o + k < usize_mod)%N ->
  substring_data E h i o k = Err IndexSize.
Proof.
  intros Hh Hk Hf. unfold substring_data. rewrite usize_add_fits by lia. cbn [rbind].
  destruct (N.eqb_spec (o + k) o); [lia|]. apply get_holds_none in Hh as (nd & -> & _ & Hv). cbn [rbind]. by rewrite Hv.
Qed.
Lemma boundary_mono s k e l r : split_at s e = Some (l, r) -> (k <= e)%N -> boundary s k <-> boundary l k.
Proof.
  intros [-> <-]%split_at_inv Hk. split.
  - intros (a & b & Hab & <-).
    assert (G : exists c, l = a ++ c).
    { revert a Hab Hk. induction l as [|x l IH]; intros [|y a] Hab Hk; cbn in *; try (by eexists).
      - pose proof (utf8_len_pos y). lia.
      - injection Hab as <- Hab. destruct (IH a Hab ltac:(lia)) as [c ->]. by exists c. }
    destruct G as [c ->]. by exists a, c.
  - intros (a & b & -> & <-). exists a, (b ++ r). by rewrite <- app_assoc.
Qed.
Lemma substring_cut_panics E h i v o k : holds h i v -> (0 < k)%N -> (o < blen v)%N -> (o + k < usize_mod)%N ->
  ~ boundary v o \/ (o + k < blen v)%N /\ ~ boundary v (o + k) ->
  substring_data E h i o k = Panic PSlice.
Proof.
  intros Hh Hk Ho Hf Hb. unfold substring_data. rewrite usize_add_fits by lia. cbn [rbind].
  destruct (N.eqb_spec (o + k) o); [lia|]. apply get_holds in Hh as (nd & -> & _ & Hv). cbn [rbind]. rewrite Hv.
  destruct (N.leb_spec (blen v) o); [lia|]. destruct (N.leb_spec (blen v) (o + k)).
  - unfold split_at_res. destruct Hb as [Hb|[? _]]; [|lia]. apply split_at_none in Hb. by rewrite Hb.
  - destruct (N.ltb_spec (o + k) o); [lia|]. unfold split_at_res.
    destruct (split_at v (o + k)) as [[p q]|] eqn:Hs; [|done]. cbn [rbind fst].
    destruct Hb as [Hb|[_ Hb]].
    + rewrite (boundary_mono v o (o + k) p q Hs ltac:(lia)) in Hb. apply split_at_none in Hb. by rewrite Hb.
    + apply split_at_none in Hb. congruence.
Qed.

(** ** Writing *)
Definition put_value (h : heap) (i : id) (n : node) (v : option str) : heap :=
  mkHeap (<[i := set_value v n]> (h_nodes h)) (h_next h).
Lemma put_value_only h i n v : h_nodes h !! i = Some n -> only_value_changed h (put_value h i n v) i v.
Proof.
  intros H. split; [done|]. split.
  - intros j Hj. cbn. by rewrite lookup_insert_ne.
  - exists n, (set_value v n). cbn. by rewrite lookup_insert.
Qed.
Lemma put_value_holds h i n v : holds (put_value h i n (Some v)) i v.
Proof. exists (set_value (Some v) n). cbn. by rewrite lookup_insert. Qed.
Lemma put_put h i n v w : put_value (put_value h i n v) i (set_value v n) w = put_value h i n w.
Proof. unfold put_value. cbn. by rewrite insert_insert. Qed.
Lemma put_id h i n : h_nodes h !! i = Some n -> put_value h i n (n_value n) = h.
Proof. intros H. unfold put_value. destruct h as [m k], n. cbn in *. by rewrite insert_id. Qed.

Lemma replace_data_eq E h i n o k x : h_nodes h !! i = Some n ->
  replace_data E i o k x h =
    match replace_value E (n_value n) o k x with
    | Ok v => (put_value h i n (Some v), Ok tt)
    | Err e => (h, Err e) | Panic p => (h, Panic p) | Diverge => (h, Diverge)
    end.
Proof.
  intros H. unfold replace_data, bind, getM, lift, get_node, modifyM. rewrite H. cbn.
  destruct (replace_value E (n_value n) o k x); done.
Qed.
Lemma replace_value_slice E l m r x : m ++ r <> [] -> fits (l ++ m ++ r) ->
  replace_value E (Some (l ++ m ++ r)) (blen l) (blen m) x = Ok (l ++ x ++ r).
Proof.
  intros Hne Hf. apply blen_pos in Hne. unfold fits in Hf. unfold replace_value. rewrite !blen_app in *.
  destruct (N.leb_spec (blen l + (blen m + blen r)) (blen l)); [lia|]. rewrite usize_add_fits by lia. cbn [rbind].
  destruct (N.leb_spec (blen l + (blen m + blen r)) (blen l + blen m)) as [H1|H1].
  - assert (Hr : r = []) by (apply blen_nil_inv; lia). subst. unfold split_at_res. rewrite split_at_app. cbn.
    by rewrite app_nil_r.
  - destruct (N.ltb_spec (blen l + blen m) (blen l)); [lia|].
    unfold split_at_res. rewrite split_at_app1. cbn [rbind fst snd]. by rewrite split_at_app.
Qed.
Lemma replace_value_clip E l m k x : m <> [] -> (blen m <= k)%N -> (blen l + k < usize_mod)%N ->
  replace_value E (Some (l ++ m)) (blen l) k x = Ok (l ++ x).
Proof.
  intros Hne Hk Hf. apply blen_pos in Hne. unfold replace_value. rewrite !blen_app in *.
  destruct (N.leb_spec (blen l + blen m) (blen l)); [lia|]. rewrite usize_add_fits by lia. cbn [rbind].
  destruct (N.leb_spec (blen l + blen m) (blen l + k)); [|lia].
  unfold split_at_res. by rewrite split_at_app.
Qed.
Lemma replace_value_past E v o k x : (blen v <= o)%N -> replace_value E (Some v) o k x = Err IndexSize.
Proof. intros H. unfold replace_value. by destruct (N.leb_spec (blen v) o); [|lia]. Qed.
Lemma replace_value_cut E v o k x : (o < blen v)%N -> (o + k < usize_mod)%N ->
  ~ boundary v o \/ (o + k < blen v)%N /\ ~ boundary v (o + k) -> replace_value E (Some v) o k x = Panic PSlice.
Proof.
  intros Ho Hf Hb. unfold replace_value. destruct (N.leb_spec (blen v) o); [lia|].
  rewrite usize_add_fits by lia. cbn [rbind]. destruct (N.leb_spec (blen v) (o + k)).
  - unfold split_at_res. destruct Hb as [Hb|[? _]]; [|lia]. apply split_at_none in Hb. by rewrite Hb.
  - destruct (N.ltb_spec (o + k) o); [lia|]. unfold split_at_res.
    destruct (split_at v (o + k)) as [[p q]|] eqn:Hs; [|done]. cbn [rbind fst].
    destruct Hb as [Hb|[_ Hb]].
    + rewrite (boundary_mono v o (o + k) p q Hs ltac:(lia)) in Hb. apply split_at_none in Hb. by rewrite Hb.
    + apply split_at_none in Hb. congruence.
Qed.
Lemma insert_data_eq E h i o x : x <> [] -> insert_data E i o x h = replace_data E i o 0 x h.
Proof. intros H. unfold insert_data. by destruct x. Qed.
Lemma delete_data_eq E h i o k : (0 < k)%N -> (o + k < usize_mod)%N ->
  delete_data E i o k h = replace_data E i o k [] h.
Proof.
  intros Hk Hf. unfold delete_data, bind at 1, lift. rewrite usize_add_fits by lia.
  by destruct (N.eqb_spec (o + k) o); [lia|].
Qed.
Lemma delete_data_zero E h i o : (o < usize_mod)%N -> delete_data E i o 0 h = (h, Ok tt).
Proof.
  intros Hf. unfold delete_data, bind at 1, lift. rewrite usize_add_fits by lia. by rewrite N.add_0_r, N.eqb_refl.
Qed.
