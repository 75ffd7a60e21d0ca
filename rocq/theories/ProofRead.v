(** * ProofRead: the reader of [SpecShow] reads what is written *)
From Coq Require Import Lia Permutation.
From Verif Require Import SpecShow ProofText.

Lemma drop_prefix_app p s : drop_prefix p (p ++ s) = Some s.
Proof. unfold drop_prefix. rewrite firstn_app, Nat.sub_diag, firstn_all, firstn_O, app_nil_r. rewrite bool_decide_true by done. by rewrite skipn_app, Nat.sub_diag, skipn_all, skipn_O. Qed.
Lemma drop_prefix_cons c p x s : drop_prefix (c :: p) (x :: s) = if (x =? c)%N then drop_prefix p s else None.
Proof.
  unfold drop_prefix. cbn [length firstn skipn]. destruct (N.eqb_spec x c) as [->|Hne].
  - destruct (bool_decide_reflect (firstn (length p) s = p)) as [H|H].
    + rewrite bool_decide_true by congruence. done.
    + rewrite bool_decide_false by congruence. done.
  - rewrite bool_decide_false by congruence. done.
Qed.
Lemma drop_prefix_nil c p : drop_prefix (c :: p) [] = None.
Proof. done. Qed.
Lemma drop_prefix_e s : drop_prefix [] s = Some s.
Proof. done. Qed.
Lemma until_app c a b : ~ In c a -> until c (a ++ c :: b) = Some (a, b).
Proof.
  induction a as [|x a IH]; intros H; cbn; [by rewrite N.eqb_refl|]. destruct (N.eqb_spec x c) as [->|_]; [exfalso; apply H; by left|].
  rewrite IH; [done|]. intros Hin. apply H. by right.
Qed.
Lemma while_app p a b : Forall (fun c => p c = true) a -> match b with [] => True | x :: _ => p x = false end -> while p (a ++ b) = (a, b).
Proof.
  intros Ha Hb. induction Ha as [|x a Hx _ IH]; cbn; [destruct b as [|x b]; cbn; [done|by rewrite Hb]|]. by rewrite Hx, IH.
Qed.
Lemma decoded_escaped v d : escaped v d -> decoded None d = Some v.
Proof.
  induction 1 as [|c v d Hc _ IH|c r v d Hr _ IH]; [done| |].
  - cbn. destruct (N.eqb_spec c 38) as [->|_]; [exfalso; apply Hc; by left|]. by rewrite IH.
  - destruct Hr; match goal with |- decoded None (lit ?s ++ d) = _ =>
      let l := eval vm_compute in (lit s) in change (lit s ++ d) with (l ++ d) end; cbn; by rewrite IH.
Qed.
Lemma escaped_no v d c : escaped v d -> c = 60%N \/ c = 62%N \/ c = 34%N -> ~ In c d.
Proof. intros H Hc Hin. apply escaped_markup_free in H as [H _]. destruct (H c Hin) as (? & ? & ? & ?). destruct Hc as [|[|]]; done. Qed.
Lemma escaped_nil_r v : escaped v [] -> v = [].
Proof.
  inversion 1 as [| |c r v' d' Hr Hd]; [done|]. destruct Hr; match goal with H : lit _ ++ _ = [] |- _ => by apply app_eq_nil in H as [H _] end.
Qed.
Lemma escaped_app v d v' d' : escaped v d -> escaped v' d' -> escaped (v ++ v') (d ++ d').
Proof. intros H H'. induction H; [done|by constructor|]. cbn. rewrite <- app_assoc. by constructor. Qed.

(** ** Names that can be written: no space, [>], [=], [<], and not starting with [/], [!] or [?] *)
Definition writable (n : str) : Prop :=
  Forall (fun c => c <> 32%N /\ c <> 62%N /\ c <> 61%N /\ c <> 60%N) n /\ match n with [] => False | c :: _ => c <> 47%N /\ c <> 33%N /\ c <> 63%N end.
Inductive well_named : xml -> Prop :=
| wn_element name attrs kids : writable name -> Forall (fun p => writable p.1) attrs -> Forall well_named kids ->
    well_named (XmlElement name attrs kids)
| wn_text v : well_named (XmlText v)
| wn_comment v : well_named (XmlComment v)
| wn_cdata v : (forall s a b, v = Some s -> s <> a ++ lit "]]>" ++ b) -> well_named (XmlCData v)
| wn_pi t d : writable t -> (forall s, d = Some s -> ~ In 62%N s) -> well_named (XmlPI t d).

Lemma lit_lt : lit "<" = [60%N]. Proof. done. Qed.
Lemma lit_gt : lit ">" = [62%N]. Proof. done. Qed.
Lemma lit_sp : lit " " = [32%N]. Proof. done. Qed.
Lemma lit_eq : lit "=" = [61%N]. Proof. done. Qed.
Lemma lit_qt : lit """" = [34%N]. Proof. done. Qed.
Lemma lit_end : lit "</" = [60;47]%N. Proof. done. Qed.
Lemma lit_com : lit "<!--" = [60;33;45;45]%N. Proof. done. Qed.
Lemma lit_moc : lit "-->" = [45;45;62]%N. Proof. done. Qed.
Lemma lit_dd : lit "--" = [45;45]%N. Proof. done. Qed.
Lemma lit_cd : lit "<![CDATA[" = [60;33;91;67;68;65;84;65;91]%N. Proof. done. Qed.
Lemma lit_dc : lit "]]>" = [93;93;62]%N. Proof. done. Qed.
Lemma lit_pi : lit "<?" = [60;63]%N. Proof. done. Qed.
Lemma lit_q : lit "?" = [63%N]. Proof. done. Qed.
Lemma until_cdata v b : (forall x y, v <> x ++ lit "]]>" ++ y) -> until_all (lit "]]>") (v ++ 32%N :: lit "]]>" ++ b) = Some (v ++ [32%N], b).
Proof.
  rewrite lit_dc. induction v as [|c v IH]; intros H.
  - cbn [app until_all]. rewrite !drop_prefix_cons. cbn [N.eqb Pos.eqb]. by rewrite drop_prefix_e.
  - assert (Hd : drop_prefix [93; 93; 62]%N ((c :: v) ++ 32%N :: [93; 93; 62]%N ++ b) = None).
    { cbn [app]. rewrite drop_prefix_cons. destruct (N.eqb_spec c 93) as [->|_]; [|done]. destruct v as [|c1 v]; cbn [app]; rewrite drop_prefix_cons; [done|].
      destruct (N.eqb_spec c1 93) as [->|_]; [|done]. destruct v as [|c2 v]; cbn [app]; rewrite drop_prefix_cons; [done|].
      destruct (N.eqb_spec c2 62) as [->|_]; [|done]. exfalso. by apply (H [] v). }
    cbn [until_all app] in *. rewrite Hd, IH; [done|]. intros x y ->. by apply (H (c :: x) y).
Qed.

Lemma read_attrs_ok attrs parts t : Forall2 written_attr attrs parts -> Forall (fun p => writable p.1) attrs ->
  forall fuel, (length (concat (map (app (lit " ")) parts) ++ lit ">" ++ t) < fuel)%nat ->
  read_attrs fuel (concat (map (app (lit " ")) parts) ++ lit ">" ++ t) = Some (attrs, t).
Proof.
  induction 1 as [|[nm v] s attrs parts Hw _ IH]; intros Hn fuel Hf; (destruct fuel as [|k]; [lia|]).
  - cbn [map concat app read_attrs]. by rewrite lit_gt, drop_prefix_app.
  - inversion Hn as [|? ? [Hc _] Hn']; subst. destruct Hw as (d & Hd & ->). cbn [fst snd] in *.
    cbn [map concat] in *. unfold in_quotes in *. rewrite lit_sp, lit_eq, lit_qt in *. rewrite <- !app_assoc in *. cbn [app] in *.
    cbn [read_attrs]. rewrite lit_gt, lit_sp, !drop_prefix_cons. cbn [N.eqb Pos.eqb].
    assert (Hu : until 61 (nm ++ 61 :: 34 :: d ++ 34 :: concat (map (app [32%N]) parts) ++ lit ">" ++ t)%N = Some (nm, 34 :: d ++ 34 :: concat (map (app [32%N]) parts) ++ lit ">" ++ t)%N).
    { apply until_app. rewrite Forall_forall in Hc. intros Hin. apply elem_of_list_In in Hin. by destruct (Hc _ Hin) as (_ & _ & ? & _). }
    rewrite !drop_prefix_e. rewrite lit_gt in *. cbn [app] in *. rewrite Hu. rewrite lit_qt, drop_prefix_cons. cbn [N.eqb Pos.eqb]. rewrite !drop_prefix_e.
    rewrite until_app by (eapply escaped_no; [exact Hd|tauto]). rewrite (decoded_escaped v d Hd). rewrite IH; [done|done|].
    clear IH Hu. do 5 (rewrite ?app_length in Hf; cbn [length] in Hf); do 5 (rewrite ?app_length; cbn [length]). lia.
Qed.

Lemma add_text_app v w l : add_text (v ++ w) l = add_text v (add_text w l).
Proof.
  destruct v as [|c v]; [done|]. destruct w as [|c' w]; [by rewrite app_nil_r|]. destruct l as [|[] l]; cbn; try done. by rewrite <- app_assoc.
Qed.
Lemma add_text_same v a b : Forall2 same_item a b -> Forall2 same_item (add_text v a) (add_text v b).
Proof.
  intros H. destruct v as [|c v]; [done|]. destruct H as [|x y a b Hxy Hab]; cbn; [repeat constructor|]. destruct Hxy; repeat constructor; try done.
Qed.
Definition at_stop (rest : str) : Prop := rest = [] \/ exists r, rest = lit "</" ++ r.
(** A first child that is neither text nor invisible. *)
Definition solid (l : list xml) : Prop := match l with [] | XmlElement _ _ _ :: _ | XmlComment (Some _) :: _ | XmlCData (Some _) :: _ | XmlPI _ _ :: _ => True | _ => False end.
Lemma solid_add v l : solid l -> v <> [] -> add_text v (fold_right add_items [] l) = Text v :: fold_right add_items [] l.
Proof. intros Hl Hv. destruct v as [|c v]; [done|]. destruct l as [|[| |[w|]|[w|]| | | | | | | |] l]; done. Qed.
Lemma solid_head l ts rest : solid l -> Forall2 written l ts -> at_stop rest ->
  match concat ts ++ rest with [] => True | x :: _ => x = 60%N end.
Proof.
  intros Hl Hw Hr. destruct Hw as [|x t l ts Hx Hw]; [destruct Hr as [->|(r & ->)]; done|].
  destruct x as [| |[w|]|[w|]| | | | | | | |]; try done; inversion Hx; subst; done.
Qed.
Lemma len_app {A} (a b : list A) : length (a ++ b) = (length a + length b)%nat.
Proof. apply app_length. Qed.
Lemma read_kids fuel : forall l ts v d rest, Forall well_named l -> Forall2 written l ts -> escaped v d -> at_stop rest ->
  (length (d ++ concat ts ++ rest) < fuel)%nat ->
  exists its, read_content fuel (d ++ concat ts ++ rest) = Some (its, rest) /\ Forall2 same_item its (add_text v (fold_right add_items [] l)).
Proof.
  induction fuel as [|k IH]; [intros; lia|]. intros l.
  (* what is left of the text read, when the next child is solid *)
  assert (T : forall l ts v d rest, solid l -> Forall well_named l -> Forall2 written l ts -> escaped v d -> at_stop rest ->
    (length (d ++ concat ts ++ rest) < S k)%nat -> d <> [] ->
    exists its, read_content (S k) (d ++ concat ts ++ rest) = Some (its, rest) /\ Forall2 same_item its (add_text v (fold_right add_items [] l))).
  { clear l. intros l ts v d rest Hso Hwn Hw Hd Hr Hlen Hne.
    assert (H60 : ~ In 60%N d) by (eapply escaped_no; [exact Hd|tauto]).
    destruct (IH l ts [] [] rest Hwn Hw esc_nil Hr) as (its & Hits & Hsame).
    { rewrite len_app in Hlen. destruct d; [done|]. cbn in *. lia. }
    cbn [app add_text] in Hits, Hsame. exists (Text v :: its). split.
    - destruct d as [|c d]; [done|]. cbn [app read_content]. rewrite lit_end, lit_com, lit_cd, lit_pi, lit_lt, !drop_prefix_cons.
      assert (Hc : c <> 60%N) by (intros ->; apply H60; by left). apply N.eqb_neq in Hc. rewrite Hc.
      change (c :: d ++ concat ts ++ rest) with ((c :: d) ++ (concat ts ++ rest)). rewrite while_app.
      + by rewrite (decoded_escaped _ _ Hd), Hits.
      + apply Forall_forall. intros x Hx. destruct (N.eqb_spec x 60) as [->|_]; [|done]. exfalso. apply H60. by apply elem_of_list_In.
      + pose proof (solid_head l ts rest Hso Hw Hr) as Hh. destruct (concat ts ++ rest) as [|x ?]; [done|]. by subst.
    - rewrite solid_add; [constructor; [constructor|done]|done|]. intros ->. inversion Hd; subst; done. }
  induction l as [|x l IHl]; intros ts v d rest Hwn Hw Hd Hr Hlen.
  - destruct d as [|c d]; [|by apply T]. inversion Hw; subst. apply escaped_nil_r in Hd as ->. cbn [app concat add_text fold_right].
    exists []. split; [|constructor]. destruct Hr as [->|(r & ->)]; [done|]. rewrite lit_end at 1. cbn [app read_content]. rewrite lit_end, (drop_prefix_cons 60 [47%N]), N.eqb_refl, (drop_prefix_cons 47 []), N.eqb_refl, drop_prefix_e. done.
  - inversion Hw as [|? t ? ts' Hx Hw']; subst. inversion Hwn as [|? ? Hnx Hnl]; subst. cbn [concat] in *.
    destruct Hnx as [name attrs kids Hname Hattrs Hkids|w|w|w Hcd|w dd Hname Hpd].
    + destruct d as [|c d]; [|by apply (T (XmlElement name attrs kids :: l) (t :: ts') v (c :: d) rest)].
      apply escaped_nil_r in Hd as ->. cbn [app add_text fold_right add_items] in *.
      inversion Hx as [? ? attrs' parts ? texts Hp Hwa Hwk| | | | | | | | | | | | | | | |]; subst.
      repeat rewrite <- app_assoc in *. destruct name as [|c0 name0] eqn:Hnm; [by destruct Hname|]. rewrite <- Hnm in *.
      set (after_attrs := concat texts ++ lit "</" ++ name ++ lit ">" ++ concat ts' ++ rest) in *.
      set (from_attrs := concat (map (app (lit " ")) parts) ++ lit ">" ++ after_attrs) in *.
      assert (Hl1 : (length from_attrs < k)%nat). { subst name. rewrite lit_lt in Hlen. cbn in Hlen. rewrite len_app in Hlen. lia. }
      assert (Hl2 : (length after_attrs < k)%nat). { unfold from_attrs in Hl1. rewrite !len_app in Hl1. lia. }
      assert (Hl3 : (length (concat ts' ++ rest) < k)%nat). { unfold after_attrs in Hl2. rewrite !len_app in Hl2. rewrite len_app. lia. }
      destruct (IH kids texts [] [] (lit "</" ++ name ++ lit ">" ++ concat ts' ++ rest) Hkids Hwk esc_nil) as (ik & Hik & Hsk); [right; eauto|done|].
      destruct (IH l ts' [] [] rest Hnl Hw' esc_nil Hr Hl3) as (il & Hil & Hsl).
      cbn [app add_text] in *. fold after_attrs in Hik.
      exists (Element name attrs' ik :: il). split; [|constructor; [constructor; [by symmetry|done]|done]].
      rewrite lit_lt. cbn [app read_content]. rewrite lit_end, lit_com, lit_cd, lit_pi, lit_lt, !drop_prefix_cons, N.eqb_refl, drop_prefix_e.
      assert (Hh : drop_prefix [47%N] (name ++ from_attrs) = None /\ (forall p, drop_prefix (33%N :: p) (name ++ from_attrs) = None) /\ drop_prefix [63%N] (name ++ from_attrs) = None).
      { destruct Hname as [_ Hh]. rewrite Hnm in *. destruct Hh as (H1 & H2 & H3). cbn [app]. rewrite !drop_prefix_cons. apply N.eqb_neq in H1, H2, H3. rewrite H1, H3. split; [done|]. split; [|done]. intros p. by rewrite drop_prefix_cons, H2. }
      destruct Hh as (-> & Hh & ->). rewrite !Hh. rewrite while_app.
      * unfold from_attrs in *. rewrite (read_attrs_ok _ _ _ Hwa); [|by rewrite <- Hp|done]. rewrite Hik. rewrite <- lit_end.
        replace (lit "</" ++ name ++ lit ">" ++ concat ts' ++ rest) with ((lit "</" ++ name ++ lit ">") ++ concat ts' ++ rest) by (by rewrite <- !app_assoc).
        rewrite drop_prefix_app. by rewrite Hil.
      * destruct Hname as [Hname _]. eapply Forall_impl; [exact Hname|]. cbn. intros c (H1 & H2 & _). apply N.eqb_neq in H1, H2. by rewrite H1, H2.
      * unfold from_attrs. destruct parts; done.
    + assert (Ht : escaped (default [] w) t) by (inversion Hx; subst; [done|constructor]).
      rewrite app_assoc, app_assoc in Hlen. rewrite <- app_assoc in Hlen. rewrite <- app_assoc, (app_assoc d t).
      destruct (IHl ts' (v ++ default [] w) (d ++ t) rest Hnl Hw' (escaped_app _ _ _ _ Hd Ht) Hr Hlen) as (its & H1 & H2).
      exists its. split; [done|]. cbn [fold_right add_items]. by rewrite <- add_text_app.
    + destruct w as [w|]; [|inversion Hx; subst; by apply IHl].
      destruct d as [|c d]; [|by apply (T (XmlComment (Some w) :: l) (t :: ts') v (c :: d) rest)].
      apply escaped_nil_r in Hd as ->. cbn [app add_text fold_right add_items] in *. inversion Hx as [| | | | |? e He| | | | | | | | | | |]; subst.
      repeat rewrite <- app_assoc in *.
      destruct (IH l ts' [] [] rest Hnl Hw' esc_nil Hr) as (il & Hil & Hsl); [cbn [app]; rewrite !len_app in Hlen; rewrite len_app; cbn in Hlen; lia|].
      cbn [app add_text] in *. exists (Comment w :: il). split; [|constructor; [constructor|done]].
      rewrite lit_com at 1. cbn [app read_content]. rewrite lit_end, lit_com, lit_cd, lit_pi, lit_lt, !drop_prefix_cons. cbn [N.eqb Pos.eqb]. rewrite !drop_prefix_e.
      replace (e ++ lit "-->" ++ concat ts' ++ rest) with ((e ++ lit "--") ++ 62%N :: concat ts' ++ rest) by (by rewrite <- app_assoc).
      rewrite until_app.
      * rewrite rev_app_distr. change (rev (lit "--")) with (lit "--"). rewrite drop_prefix_app, rev_involutive, (decoded_escaped _ _ He), Hil. done.
      * intros Hin. apply in_app_iff in Hin as [Hin|Hin]; [eapply escaped_no; [exact He| |exact Hin]; tauto|]. by destruct Hin as [|[|]].
    + destruct w as [w|]; [|inversion Hx; subst; by apply IHl].
      destruct d as [|c d]; [|by apply (T (XmlCData (Some w) :: l) (t :: ts') v (c :: d) rest); [|constructor; [constructor|]|..]].
      apply escaped_nil_r in Hd as ->. cbn [app add_text fold_right add_items] in *. inversion Hx; subst. repeat rewrite <- app_assoc in *.
      destruct (IH l ts' [] [] rest Hnl Hw' esc_nil Hr) as (il & Hil & Hsl); [cbn [app]; rewrite !len_app in Hlen; rewrite len_app; cbn in Hlen; lia|].
      cbn [app add_text] in *. exists (CData (lit " " ++ w ++ lit " ") :: il). split; [|constructor; [constructor|done]].
      change (lit "<![CDATA[ ") with (lit "<![CDATA[" ++ [32%N]). change (lit " ]]>") with (32%N :: lit "]]>"). rewrite lit_cd at 1. cbn [app read_content].
      rewrite lit_end, lit_com, lit_cd, lit_pi, lit_lt, !drop_prefix_cons. cbn [N.eqb Pos.eqb]. rewrite !drop_prefix_e.
      change (32%N :: w ++ 32%N :: lit "]]>" ++ concat ts' ++ rest) with ((32%N :: w) ++ 32%N :: lit "]]>" ++ concat ts' ++ rest). rewrite until_cdata.
      * by rewrite Hil.
      * intros [|x0 x] y; [done|]. intros [= <- ->]. by eapply (Hcd _ x y).
    + destruct d as [|c d]; [|by apply (T (XmlPI w dd :: l) (t :: ts') v (c :: d) rest); [|constructor; [constructor|]|..]].
      apply escaped_nil_r in Hd as ->. cbn [app add_text fold_right add_items] in *.
      assert (Ht : t = lit "<?" ++ (pi_body w dd ++ lit "?") ++ lit ">").
      { unfold pi_body. inversion Hx; subst; repeat rewrite <- app_assoc; done. }
      subst t. repeat rewrite <- app_assoc in Hlen.
      destruct (IH l ts' [] [] rest Hnl Hw' esc_nil Hr) as (il & Hil & Hsl); [cbn [app]; rewrite !len_app in Hlen; rewrite len_app; cbn in Hlen; lia|].
      cbn [app add_text] in *. exists (Pi (pi_body w dd) :: il). split; [|constructor; [constructor|done]].
      rewrite <- !(app_assoc (lit "<?")). rewrite <- !(app_assoc (pi_body w dd ++ lit "?")). rewrite lit_pi at 1. cbn [app read_content].
      rewrite lit_end, lit_com, lit_cd, lit_pi, lit_lt, !drop_prefix_cons. cbn [N.eqb Pos.eqb]. rewrite !drop_prefix_e. rewrite lit_gt. cbn [app].
      rewrite until_app.
      * rewrite rev_app_distr. change (rev (lit "?")) with (lit "?"). rewrite drop_prefix_app, rev_involutive, Hil. done.
      * destruct Hname as [Hname _]. rewrite Forall_forall in Hname.
        assert (Hw62 : ~ In 62%N w) by (intros Hin; apply elem_of_list_In in Hin; by destruct (Hname _ Hin) as (_ & ? & _)).
        rewrite in_app_iff. intros [Hin|[Hin|[]]]; [|done]. unfold pi_body in Hin. destruct dd as [dd|]; [|done]. rewrite !in_app_iff in Hin.
        destruct Hin as [Hin|[[Hin|[]]|Hin]]; [done|done|by eapply Hpd].
Qed.
Lemma read_back_ok x s : well_named x -> written x s -> exists its, read_back s = Some its /\ Forall2 same_item its (add_items x []).
Proof.
  intros Hn Hw. unfold read_back. destruct (read_kids (S (length s)) [x] [s] [] [] []) as (its & H1 & H2); try done.
  - by repeat constructor.
  - by repeat constructor.
  - constructor.
  - by left.
  - cbn [app concat]. rewrite !app_nil_r. lia.
  - cbn [app concat] in H1. rewrite !app_nil_r in H1. rewrite H1. eauto.
Qed.
