(** * SpecGen: printing and reading again and again (C83) *)
From Verif Require Export SpecRound.

(** A document is printed, and what is printed is read next to it. *)
Definition one_round (E : env) (h : heap) (d : id) (h' : heap) (d' : id) : Prop := exists s evs,
  to_string E h d = Ok s /\ reader_events s = Some evs /\ read_events E evs h = (h', POk d').
Inductive rounds (E : env) : nat -> heap -> id -> heap -> id -> Prop :=
| rs_none h d : rounds E 0 h d h d
| rs_more n h d h1 d1 h2 d2 : one_round E h d h1 d1 -> rounds E n h1 d1 h2 d2 -> rounds E (S n) h d h2 d2.
(** What becomes of the content, with different ids each time. *)
Inductive rereads (E : env) : nat -> list item -> list item -> Prop :=
| rrs_none c : rereads E 0 c c
| rrs_more n c c1 c2 : reread E c c1 -> NoDup (flat_map ids c1) -> rereads E n c1 c2 -> rereads E (S n) c c2.

(** Values of attributes without [&] and [%], instructions without [&]. *)
Inductive simple : item -> Prop :=
| si_element n l kids : Forall (fun p => ~ In 38%N p.2 /\ ~ In 37%N p.2) l -> Forall simple kids -> simple (Element n l kids)
| si_text v : simple (Text v)
| si_comment v : simple (Comment v)
| si_cdata v : simple (CData v)
| si_pi s : ~ In 38%N s -> simple (Pi s).
(** Every CDATA section with [n] more spaces at both ends. *)
Fixpoint padded (n : nat) (x : item) : item :=
  match x with
  | Element e l kids => Element e l (map (padded n) kids)
  | CData v => CData (repeat 32%N n ++ v ++ repeat 32%N n)
  | _ => x
  end.
(** There is a CDATA section. *)
Inductive has_cdata : item -> Prop :=
| hc_here v : has_cdata (CData v)
| hc_below n l kids : Exists has_cdata kids -> has_cdata (Element n l kids).
(** No value of an attribute is longer than [n]. *)
Inductive values_within (n : nat) : item -> Prop :=
| vw_element e l kids : Forall (fun p => (length p.2 <= n)%nat) l -> Forall (values_within n) kids -> values_within n (Element e l kids)
| vw_text v : values_within n (Text v)
| vw_comment v : values_within n (Comment v)
| vw_cdata v : values_within n (CData v)
| vw_pi s : values_within n (Pi s).
