(** * SpecWild: histories that call any trait on any node

    Every DOM trait is implemented for [RefNode], so a program can call, say, [Document::create_element]
    on an element or [Attribute::unset_value] on a document.  [typed_op] (History.v) leaves these calls out;
    here they are allowed. *)
From Verif Require Export SpecTree.

Definition wstep (h : heap) (o : op) (h' : heap) : Prop :=
  exists E r, wf_env E /\ exec E o h = (h', r) /\ match r with Ok _ | Err _ => True | Panic _ | Diverge => False end.
Inductive wild : heap -> Prop :=
| wild_nil : wild empty_heap
| wild_step h o h' : wild h -> wstep h o h' -> wild h'.
(** [h'] comes after [h] in some such history. *)
Definition wlater : heap -> heap -> Prop := rtc (fun a b => exists o, wstep a o b).

Fixpoint wrun (E : env) (ops : list op) (h : heap) : option heap :=
  match ops with
  | [] => Some h
  | o :: t => match exec E o h with
              | (h', Ok _) | (h', Err _) => wrun E t h'
              | _ => None
              end
  end.
Lemma wrun_wild ops h h' : wild h -> wrun env0 ops h = Some h' -> wild h'.
Proof.
  revert h. induction ops as [|o ops IH]; intros h Hr H; cbn in H; [congruence|].
  destruct (exec env0 o h) as [h1 r] eqn:He.
  destruct r; try done; (eapply IH; [|exact H]); (eapply wild_step; [exact Hr|]);
    exists env0; eexists; (split; [exact wf_env0|]); split; [exact He|exact I| exact He|exact I].
Qed.
Lemma wrun0_wild ops h : wrun env0 ops empty_heap = Some h -> wild h.
Proof. apply wrun_wild. constructor. Qed.
