(** * ProofFuel: the fuel of the tree walks does not matter beyond the number of nodes *)
From Coq Require Import Lia.
From Verif Require Import Access.

Lemma is_diverge {A} (r : res A) : r = Diverge \/ r <> Diverge.
Proof. destruct r; auto. Qed.

(** ** Computations that make recursive calls one after the other *)
Section seqc.
  Context {A : Type}.
  Definition ext (g g' : id -> res A) : Prop := forall x, g x <> Diverge -> g' x = g x.
  Definition seqc {B} (F : (id -> res A) -> res B) : Prop :=
    (forall g g', ext g g' -> F g <> Diverge -> F g' = F g) /\
    (forall g, F g = Diverge -> (forall g', ext g g' -> F g' = Diverge) \/ exists c, g c = Diverge /\ forall g', ext g g' -> g' c = Diverge -> F g' = Diverge).
  Lemma seq_const {B} (r : res B) : seqc (fun _ => r).
  Proof. split; [done|]. intros g H. left. by intros. Qed.
  Lemma seq_call c : seqc (fun g => g c).
  Proof. split; [intros g g' H Hd; by apply H|]. intros g H. right. exists c. auto. Qed.
  Lemma seq_bind {B C} (F : (id -> res A) -> res B) (G : B -> (id -> res A) -> res C) : seqc F -> (forall b, seqc (G b)) -> seqc (fun g => rbind (F g) (fun b => G b g)).
  Proof.
    intros [F1 F2] HG. split.
    - intros g g' He Hd. assert (HF : F g <> Diverge) by (intros Hf; rewrite Hf in Hd; done). rewrite (F1 g g' He HF). destruct (F g) as [b| | |]; try done. cbn in *. by apply (HG b).
    - intros g Hd. destruct (is_diverge (F g)) as [Hf|Hf].
      + destruct (F2 g Hf) as [H|(c & Hc & H)]; [left|right; exists c; split; [done|]]; intros; rewrite H by done; done.
      + destruct (F g) as [b| | |] eqn:Eb; try done. cbn in Hd. assert (HF : forall g', ext g g' -> F g' = Ok b) by (intros g' He; rewrite <- Eb; apply F1; [done|by rewrite Eb]).
        destruct (proj2 (HG b) g Hd) as [H|(c & Hc & H)]; [left|right; exists c; split; [done|]]; intros; rewrite HF by done; cbn; by apply H.
  Qed.
  Lemma seq_concat {X B} (G : X -> (id -> res A) -> res (list B)) l : (forall x, seqc (G x)) -> seqc (fun g => concat_res (fun x => G x g) l).
  Proof.
    intros HG. induction l as [|x l IH]; [apply (seq_const (Ok []))|]. cbn. apply (seq_bind (G x)); [apply HG|]. intros a. apply (seq_bind _ (fun b _ => Ok (a ++ b))); [apply IH|]. intros b. apply seq_const.
  Qed.
  Lemma seq_fmt_list {X} (G : X -> (id -> res A) -> res str) l : (forall x, seqc (G x)) -> seqc (fun g => fmt_list (fun x => G x g) l).
  Proof.
    intros HG. unfold fmt_list. apply (seq_bind (fun g => concat_res (fun x => let? s := G x g in Ok [s]) l) (fun p _ => Ok (concat p))); [|intros; apply seq_const].
    apply (seq_concat (fun x g => let? s := G x g in Ok [s])). intros x. apply (seq_bind (G x) (fun s _ => Ok [s])); [done|]. intros; apply seq_const.
  Qed.
End seqc.

Section fuel.
  Context {A : Type} (f : nat -> id -> res A) (F : id -> (id -> res A) -> res A) (N : nat).
  Context (f0 : forall i, f 0 i = Diverge) (fS : forall k i, f (S k) i = F i (f k)) (HF : forall i, seqc (F i)).
  Context (Hlt : forall k i, f (S k) i = Diverge -> (i < N)%nat).
  Lemma fuel_ext k : ext (f k) (f (S k)).
  Proof.
    induction k as [|k IH]; intros i Hd; [by rewrite f0 in Hd|]. rewrite (fS (S k)). rewrite fS in Hd |- *. by apply (HF i).
  Qed.
  Lemma fuel_ext_le k m : (k <= m)%nat -> ext (f k) (f m).
  Proof. induction 1 as [|m Hm IH]; [by intros i|]. intros i Hd. rewrite <- (IH i Hd). apply fuel_ext. by rewrite (IH i Hd). Qed.
  Lemma fuel_anti k i : f (S k) i = Diverge -> f k i = Diverge.
  Proof. intros H. destruct (is_diverge (f k i)) as [|Hd]; [done|]. rewrite (fuel_ext k i Hd) in H. done. Qed.
  #[local] Instance dec_diverge k i : Decision (f k i = Diverge).
  Proof. destruct (f k i); [right; done|right; done|right; done|left; done]. Defined.
  (** The number of nodes below [N] whose walk runs out of fuel [k]. *)
  Definition cnt (k : nat) : nat := length (filter (fun i => f k i = Diverge) (seq 0 N)).
  Definition still (k : nat) : Prop := forall i, f k i = Diverge -> f (S k) i = Diverge.
  Lemma still_S k : still (S k) -> still (S (S k)).
  Proof.
    intros HS i Hi. rewrite fS in Hi. rewrite fS. assert (He : ext (f (S k)) (f (S (S k)))) by apply fuel_ext.
    destruct (proj2 (HF i) _ Hi) as [H|(c & Hc & H)]; [by apply H|]. apply H; [done|]. by apply HS.
  Qed.
  Lemma filter_le {X} (P Q : X -> Prop) `{forall x, Decision (P x)} `{forall x, Decision (Q x)} (l : list X) : (forall x, Q x -> P x) -> (length (filter Q l) <= length (filter P l))%nat /\ ((length (filter P l) <= length (filter Q l))%nat -> forall x, In x l -> P x -> Q x).
  Proof.
    intros HPQ. induction l as [|x l [IH1 IH2]]; [done|]. rewrite !filter_cons. destruct (decide (Q x)) as [HQ|HQ].
    - rewrite decide_True by (by apply HPQ). cbn. split; [lia|]. intros Hle y [<-|Hy]; [done|]. apply IH2; [lia|done].
    - destruct (decide (P x)); cbn; [split; [lia|intros; lia]|]. split; [done|]. intros Hle y [<-|Hy]; [done|]. by apply IH2.
  Qed.
  Lemma cnt_step k : (cnt (S (S k)) < cnt (S k))%nat \/ still (S k).
  Proof.
    destruct (filter_le (fun i => f (S k) i = Diverge) (fun i => f (S (S k)) i = Diverge) (seq 0 N) (fun i => fuel_anti (S k) i)) as [H1 H2].
    fold (cnt (S k)) in *. fold (cnt (S (S k))) in *. destruct (decide (cnt (S k) <= cnt (S (S k)))%nat) as [Hle|Hle]; [|left; lia].
    right. intros i Hi. apply H2; [done| |done]. apply in_seq. split; [lia|]. cbn. by eapply Hlt.
  Qed.
  Lemma cnt_bound k : (cnt (S k) + k <= N)%nat \/ still (S k).
  Proof.
    induction k as [|k [IH|IH]].
    - left. rewrite Nat.add_0_r. unfold cnt. etransitivity; [apply filter_length|]. by rewrite seq_length.
    - destruct (cnt_step k) as [H|H]; [left; lia|right; by apply still_S].
    - right. by apply still_S.
  Qed.
  Lemma still_from k : (S N <= k)%nat -> still k.
  Proof.
    intros Hk. destruct k as [|k]; [lia|]. destruct (cnt_bound k) as [H|H]; [|done].
    assert (cnt (S k) = 0)%nat by lia. intros i Hi. exfalso. assert (Hin : i ∈ filter (fun i => f (S k) i = Diverge) (seq 0 N)).
    { apply elem_of_list_filter. split; [done|]. apply elem_of_list_In, in_seq. split; [lia|]. cbn. by eapply Hlt. }
    unfold cnt in *. destruct (filter _ _); [by apply elem_of_nil in Hin|done].
  Qed.
  Lemma fuel_stable k m i : (S N <= k)%nat -> (k <= m)%nat -> f m i = f k i.
  Proof.
    intros Hk. induction 1 as [|m Hm IH]; [done|]. destruct (is_diverge (f m i)) as [Hd|Hd].
    - rewrite <- IH, Hd. apply still_from; [lia|done].
    - rewrite <- IH. by apply fuel_ext.
  Qed.
End fuel.

(** ** The walks *)
Section walks.
  Context (h : heap) (Hl : forall i n, h_nodes h !! i = Some n -> (i < h_next h)%nat).
  Lemma get_diverge_lt i : (exists n, get_node h i = Ok n) -> (i < h_next h)%nat.
  Proof. unfold get_node. intros [n Hn]. destruct (h_nodes h !! i) as [m|] eqn:Hm; [|done]. by eapply Hl. Qed.
  Lemma add_ns_live i : add_namespaces h i = Diverge -> False.
  Proof.
    unfold add_namespaces, owner_document, get_node. destruct (h_nodes h !! i); [|done]. cbn. destruct (upgrade h (n_owner n)) as [d|]; [|done]. by destruct (h_nodes h !! d).
  Qed.
  Lemma add_ns_ok i b : add_namespaces h i = Ok b -> (i < h_next h)%nat.
  Proof. unfold add_namespaces, owner_document, get_node. destruct (h_nodes h !! i) eqn:Hn; [|done]. intros _. by eapply Hl. Qed.
  Lemma resolve_ns_stable p k m i : (S (h_next h) <= k)%nat -> (k <= m)%nat -> resolve_namespace_rec m h i p = resolve_namespace_rec k h i p.
  Proof.
    apply (fuel_stable (fun k i => resolve_namespace_rec k h i p) (fun i g =>
      let? b := add_namespaces h i in if negb b then Ok None else let? r := get_namespace h i p in
      match r with Some u => Ok (Some u) | None => let? n := get_node h i in match n_parent n with None => Ok None | Some q => if alive h q then g q else Panic PUnwrap end end)); try done.
    - intros j. apply (seq_bind (fun _ => add_namespaces h j)); [apply seq_const|]. intros b. destruct (negb b); [apply seq_const|].
      apply (seq_bind (fun _ => get_namespace h j p)); [apply seq_const|]. intros [u|]; [apply seq_const|]. apply (seq_bind (fun _ => get_node h j)); [apply seq_const|].
      intros n. destruct (n_parent n) as [q|]; [|apply seq_const]. destruct (alive h q); [apply seq_call|apply seq_const].
    - intros k0 j. cbn [resolve_namespace_rec]. destruct (add_namespaces h j) as [b| | |] eqn:Hb; try done; [|by apply add_ns_live in Hb]. intros _. by eapply add_ns_ok.
  Qed.
  Lemma resolve_px_stable E u k m i : (S (h_next h) <= k)%nat -> (k <= m)%nat -> resolve_prefix_rec m E h i u = resolve_prefix_rec k E h i u.
  Proof.
    apply (fuel_stable (fun k i => resolve_prefix_rec k E h i u) (fun i g =>
      let? b := add_namespaces h i in if negb b then Ok PfxNone else let? r := get_prefix E h i u in
      match r with PfxNone => let? n := get_node h i in match n_parent n with None => Ok PfxNone | Some q => if alive h q then g q else Panic PUnwrap end | _ => Ok r end)); try done.
    - intros j. apply (seq_bind (fun _ => add_namespaces h j)); [apply seq_const|]. intros b. destruct (negb b); [apply seq_const|].
      apply (seq_bind (fun _ => get_prefix E h j u)); [apply seq_const|]. intros [| |x]; try apply seq_const. apply (seq_bind (fun _ => get_node h j)); [apply seq_const|].
      intros n. destruct (n_parent n) as [q|]; [|apply seq_const]. destruct (alive h q); [apply seq_call|apply seq_const].
    - intros k0 j. cbn [resolve_prefix_rec]. destruct (add_namespaces h j) as [b| | |] eqn:Hb; try done; [|by apply add_ns_live in Hb]. intros _. by eapply add_ns_ok.
  Qed.
  Lemma search_stable p k m i : (S (h_next h) <= k)%nat -> (k <= m)%nat -> search_elements m h p i = search_elements k h p i.
  Proof.
    apply (fuel_stable (fun k i => search_elements k h p i) (fun i g => let? n := get_node h i in
      if is_type NElement n then
        let? below := concat_res (fun c => let? nc := get_node h c in if is_type NElement nc then g c else Ok []) (n_children n) in
        Ok ((if p (n_name n) then [i] else []) ++ below) else Ok [])); try done.
    - intros j. apply (seq_bind (fun _ => get_node h j)); [apply seq_const|]. intros n. destruct (is_type NElement n); [|apply seq_const].
      apply (seq_bind (fun g => concat_res (fun c => let? nc := get_node h c in if is_type NElement nc then g c else Ok []) (n_children n)) (fun b _ => Ok ((if p (n_name n) then [j] else []) ++ b))); [|intros; apply seq_const].
      apply (seq_concat (fun c g => let? nc := get_node h c in if is_type NElement nc then g c else Ok [])). intros c. apply (seq_bind (fun _ => get_node h c)); [apply seq_const|].
      intros nc. destruct (is_type NElement nc); [apply seq_call|apply seq_const].
    - intros k0 j H. apply get_diverge_lt. cbn in H. unfold get_node in *. destruct (h_nodes h !! j); [eauto|done].
  Qed.
  Lemma fmt_stable E k m i : (S (h_next h) <= k)%nat -> (k <= m)%nat -> fmt_node m E h i = fmt_node k E h i.
  Proof.
    apply (fuel_stable (fun k i => fmt_node k E h i) (fun i g =>
      let? n := get_node h i in
      let name := name_to_string (n_name n) in
      match n_type n with
      | NElement =>
          let? attrs := attributes h i in
          let? a := fmt_list (fun p => let? s := g p.2 in Ok (lit " " ++ s)) (e_ord_attr E attrs) in
          let? c := fmt_list g (n_children n) in
          Ok (lit "<" ++ name ++ a ++ lit ">" ++ c ++ lit "</" ++ name ++ lit ">")
      | NAttribute => fmt_attribute E h i
      | NText => fmt_text h i
      | NCData => fmt_cdata h i
      | NProcessingInstruction => Ok (fmt_processing_instruction n)
      | NComment => fmt_comment h i
      | NDocument =>
          let? decl := xml_declaration h i in
          let? dt := doc_type h i in
          let? dts := match dt with None => Ok [] | Some t => g t end in
          let? c := fmt_list g (n_children n) in
          Ok (match decl with Some d => xml_decl_to_string d | None => [] end ++ dts ++ c)
      | NDocumentType =>
          let '(ents, nots, pub, sys, sub) :=
            match n_ext n with
            | XDocumentType e t p s x => (e, t, p, s, x)
            | _ => ([], [], None, None, None)
            end in
          let? es := fmt_list (fun p => g p.2) (e_ord_attr E ents) in
          let? ns := fmt_list (fun p => g p.2) (e_ord_attr E nots) in
          Ok (lit "<!DOCTYPE " ++ name ++ fmt_opt (lit "PUBLIC") pub ++ fmt_opt (lit "SYSTEM") sys
              ++ (if negb (is_nil ents && is_nil nots)
                     || match sub with Some _ => true | None => false end
                  then lit "[" ++ es ++ ns ++ match sub with Some s => s | None => [] end ++ lit "]"
                  else [])
              ++ lit ">")
      | NDocumentFragment =>
          let? c := fmt_list g (n_children n) in
          Ok (lit "<![CDATA[" ++ name ++ lit " " ++ c ++ lit "]]>")
      | NEntity => Ok (fmt_entity n)
      | NEntityReference => Ok (lit "&" ++ name ++ lit ";")
      | NNotation => Ok (fmt_notation n)
      end)); try done.
    - intros j. apply (seq_bind (fun _ => get_node h j)); [apply seq_const|]. intros n. cbv zeta.
      assert (HC : seqc (fun g : id -> res str => fmt_list g (n_children n))) by (apply (seq_fmt_list (fun c g => g c)); intros; apply seq_call).
      destruct (n_type n); try apply seq_const.
      + apply (seq_bind (fun _ => attributes h j)); [apply seq_const|]. intros attrs.
        apply (seq_bind (fun g => fmt_list (fun p : Name * id => let? s := g p.2 in Ok (lit " " ++ s)) (e_ord_attr E attrs)) (fun a g => let? c := fmt_list g (n_children n) in _)).
        * apply (seq_fmt_list (fun (p : Name * id) g => let? s := g p.2 in Ok (lit " " ++ s))). intros x. apply (seq_bind (fun g => g x.2) (fun s _ => Ok (lit " " ++ s))); [apply seq_call|intros; apply seq_const].
        * intros a. apply (seq_bind (fun g => fmt_list g (n_children n)) (fun c _ => Ok _)); [done|intros; apply seq_const].
      + apply (seq_bind (fun _ => xml_declaration h j)); [apply seq_const|]. intros d. apply (seq_bind (fun _ => doc_type h j)); [apply seq_const|]. intros t.
        apply (seq_bind (fun g => match t with None => Ok [] | Some t => g t end) (fun a g => let? c := fmt_list g (n_children n) in _)); [destruct t; [apply seq_call|apply seq_const]|].
        intros a. apply (seq_bind (fun g => fmt_list g (n_children n)) (fun c _ => Ok _)); [done|intros; apply seq_const].
      + destruct (match n_ext n with XDocumentType e t p s x => (e, t, p, s, x) | _ => ([], [], None, None, None) end) as [[[[ents nots] pub] sys] subset].
        apply (seq_bind (fun g => fmt_list (fun p : Name * id => g p.2) (e_ord_attr E ents)) (fun a g => let? c := fmt_list (fun p : Name * id => g p.2) (e_ord_attr E nots) in Ok _)).
        * apply (seq_fmt_list (fun (p : Name * id) g => g p.2)). intros x. apply seq_call.
        * intros a. apply (seq_bind (fun g => fmt_list (fun p : Name * id => g p.2) (e_ord_attr E nots)) (fun c _ => Ok _)); [|intros; apply seq_const].
          apply (seq_fmt_list (fun (p : Name * id) g => g p.2)). intros x. apply seq_call.
      + apply (seq_bind (fun g => fmt_list g (n_children n)) (fun c _ => Ok _)); [done|intros; apply seq_const].
    - intros k0 j H. apply get_diverge_lt. cbn [fmt_node] in H. unfold get_node in *. destruct (h_nodes h !! j); [eauto|done].
  Qed.

  (** How many nodes a clone makes. *)
  Fixpoint size_rec (fuel : nat) (deep : bool) (i : id) : res (list unit) :=
    match fuel with
    | O => Diverge
    | S k => let? n := get_node h i in
             let? l := (if deep then concat_res (size_rec k deep) (n_children n) else Ok []) in Ok (tt :: l)
    end.
  Lemma size_stable deep k m i : (S (h_next h) <= k)%nat -> (k <= m)%nat -> size_rec m deep i = size_rec k deep i.
  Proof.
    apply (fuel_stable (fun k i => size_rec k deep i) (fun i g => let? n := get_node h i in
             let? l := (if deep then concat_res g (n_children n) else Ok []) in Ok (tt :: l))); try done.
    - intros j. apply (seq_bind (fun _ => get_node h j)); [apply seq_const|]. intros n.
      apply (seq_bind (fun g => if deep then concat_res g (n_children n) else Ok []) (fun l _ => Ok (tt :: l))); [|intros; apply seq_const].
      destruct deep; [|apply seq_const]. apply (seq_concat (fun c g => g c)). intros. apply seq_call.
    - intros k0 j H. apply get_diverge_lt. cbn [size_rec] in H. unfold get_node in *. destruct (h_nodes h !! j); [eauto|done].
  Qed.
End walks.
