(** * SpecRound: what is printed, read again (C74)

    The reader in front of the parser (quick-xml, set to trim text) is described here for documents of
    elements, text, comments, CDATA sections and processing instructions with an optional XML
    declaration. *)
From Verif Require Export SpecParse.

(** ** The reader *)
(** White space at the ends of text is trimmed; blank text is not delivered. *)
Definition edge_white (c : N) : Prop := c = 9%N \/ c = 10%N \/ c = 13%N \/ c = 32%N.
Definition edge_whiteb (c : N) : bool := ((c =? 9) || (c =? 10) || (c =? 13) || (c =? 32))%N.
Definition trimmed_front (v : str) : str := snd (while edge_whiteb v).
Definition trimmed_text (v : str) : str := rev (trimmed_front (rev (trimmed_front v))).
Fixpoint delivered (x : item) : list pnode :=
  match x with
  | Element n l kids => [PElement n l (flat_map delivered kids)]
  | Text v => match trimmed_text v with [] => [] | t => [PText t] end
  | Comment v => [PComment v]
  | CData v => [PCData v]
  | Pi s => [PPi s]
  end.
Definition value_of (k : str) (l : list (str * str)) : option str :=
  match List.filter (fun p => bool_decide (p.1 = k)) l with p :: _ => Some p.2 | [] => None end.
(** [<?xml version="..." encoding="..." standalone="..."?>], if there. *)
Definition read_decl (s : str) : option (list event * str) :=
  match drop_prefix (lit "<?xml ") s with
  | None => Some ([], s)
  | Some t =>
      match until 63 (lit " " ++ t) with
      | Some (body, t1) =>
          match drop_prefix (lit ">") t1, read_attrs (S (S (length body))) (body ++ lit ">") with
          | Some rest, Some (l, []) => Some ([EDecl (value_of (lit "version") l) (option_map Some (value_of (lit "encoding") l)) (option_map Some (value_of (lit "standalone") l))], rest)
          | _, _ => None
          end
      | None => None
      end
  end.
(** The text of an instruction is unescaped by the code (mod.rs 337), though it was printed as it is: without [&] it is what it
    is; an [&] with no [;] anywhere is an error; for other references no claim is made. *)
Definition has_char (c : N) (s : str) : bool := existsb (N.eqb c) s.
Fixpoint unescaped (evs : list event) : option (list event) :=
  match evs with
  | [] => Some []
  | EPI (Some s) :: r =>
      match unescaped r with
      | Some r' => if negb (has_char 38 s) then Some (EPI (Some s) :: r') else if negb (has_char 59 s) then Some (EPI None :: r') else None
      | None => None
      end
  | e :: r => option_map (cons e) (unescaped r)
  end.
(** The events of a text. *)
Definition reader_events (s : str) : option (list event) :=
  match read_decl s with
  | Some (evd, t) =>
      match read_back t with
      | Some its => option_map (app evd) (unescaped (events_of_all (flat_map delivered its)))
      | None => None
      end
  | None => None
  end.

(** ** Documents by content: adjacent text runs together *)
Definition content (xs : list xml) : list item := fold_right add_items [] xs.

(** ** What becomes of the content

    The value of an attribute is taken for the text of one, with its references and its white space;
    text loses the white space at its ends; a CDATA section gains a space at each end; the data of an
    instruction loses the white space at its ends (nothing is said about instructions with [&]). *)
Definition edges_gone (s t : str) : Prop :=
  exists a b, s = a ++ t ++ b /\ Forall edge_white a /\ Forall edge_white b /\
    (forall c u, t = c :: u -> ~ edge_white c) /\ (forall c u, t = u ++ [c] -> ~ edge_white c).
Inductive reread (E : env) : list item -> list item -> Prop :=
| rr_nil : reread E [] []
| rr_element n l l' kids kids' r r' : Forall2 (fun p q => q.1 = p.1 /\ denotes E p.2 q.2) l l' -> reread E kids kids' -> reread E r r' ->
    reread E (Element n l kids :: r) (Element n l' kids' :: r')
| rr_blank v r r' : edges_gone v [] -> reread E r r' -> reread E (Text v :: r) r'
| rr_text v t r r' : edges_gone v t -> t <> [] -> reread E r r' -> reread E (Text v :: r) (Text t :: r')
| rr_comment v r r' : reread E r r' -> reread E (Comment v :: r) (Comment v :: r')
| rr_cdata v r r' : reread E r r' -> reread E (CData v :: r) (CData (lit " " ++ v ++ lit " ") :: r')
| rr_pi s t d r r' : ~ In 38%N s -> pi_text s t d -> reread E r r' -> reread E (Pi s :: r) (Pi (pi_body t d) :: r').

(** No element with two attributes printed alike. *)
Inductive attrs_differ : item -> Prop :=
| ad_element n l kids : NoDup (map fst l) -> Forall attrs_differ kids -> attrs_differ (Element n l kids)
| ad_text v : attrs_differ (Text v)
| ad_comment v : attrs_differ (Comment v)
| ad_cdata v : attrs_differ (CData v)
| ad_pi s : attrs_differ (Pi s).
(** The values of the xml:id attributes. *)
Fixpoint ids (x : item) : list str :=
  match x with Element _ l kids => attr_ids l ++ flat_map ids kids | _ => [] end.
Definition decl_valid (D : option xml_decl) : Prop :=
  match D with Some (mkDecl _ (Some e) _) => encoding_name e | _ => True end.

(** A content that reading leaves as it is: values without [&], [%], tabs, line breaks, and spaces at the ends; text and
    data of instructions without white space at the ends; no CDATA sections. *)
Definition plain_value (v : str) : Prop :=
  Forall (fun c => c <> 38 /\ c <> 37 /\ c <> 9 /\ c <> 10 /\ c <> 13 /\ c <> 0x85 /\ c <> 0x2028)%N v /\ (forall x, v <> 32%N :: x) /\ (forall x, v <> x ++ [32%N]).
Inductive settled : item -> Prop :=
| se_element n l kids : Forall (fun p => plain_value p.2) l -> Forall settled kids -> settled (Element n l kids)
| se_text v : v <> [] -> edges_gone v v -> settled (Text v)
| se_comment v : settled (Comment v)
| se_pi s t d : ~ In 38%N s -> pi_text s t d -> s = pi_body t d -> settled (Pi s).
