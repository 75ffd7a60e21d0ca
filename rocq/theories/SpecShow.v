(** * SpecShow: abstract documents, how they are written, and a reader for what is written *)
From Verif Require Export SpecWalk SpecName Display.

(** ** Abstract documents

    Names are in their printed form ([prefix:local]).  Attribute values and text are plain strings,
    before any escaping. *)
Inductive xml :=
| XmlElement (name : str) (attrs : list (str * str)) (kids : list xml)
| XmlText (v : option str)
| XmlCData (v : option str)
| XmlComment (v : option str)
| XmlPI (target : str) (d : option str)
| XmlReference (name : str)
| XmlDocument (decl : option xml_decl) (dt : option xml) (kids : list xml)
| XmlDocumentType (name : str) (pub sys sub : option str)
| XmlFragment (kids : list xml)
| XmlAttribute (name v : str)
| XmlEntity (name : str) (pub sys nota v : option str)
| XmlNotation (name : str) (pub sys : option str).

(** [stands_for h i x]: the node [i] of [h], with everything below it, is the abstract document [x].
    Attributes appear in the order of the attribute map, children in child order. *)
Definition attr_stands_for (E : env) (h : heap) (a : id) (p : str * str) : Prop :=
  exists n o, h_nodes h !! a = Some n /\ n_type n = NAttribute /\ name_to_string (n_name n) = p.1 /\
    attr_value E h a = Ok o /\ match o with None => p.2 = [] | Some s => escaped p.2 s end.
Inductive stands_for (E : env) (h : heap) : id -> xml -> Prop :=
| sf_element i n attrs avs kids :
    h_nodes h !! i = Some n -> n_type n = NElement -> attributes h i = Ok attrs ->
    Forall2 (attr_stands_for E h) (map snd attrs) avs -> Forall2 (stands_for E h) (n_children n) kids ->
    stands_for E h i (XmlElement (name_to_string (n_name n)) avs kids)
| sf_text i n : h_nodes h !! i = Some n -> n_type n = NText -> stands_for E h i (XmlText (n_value n))
| sf_cdata i n : h_nodes h !! i = Some n -> n_type n = NCData -> stands_for E h i (XmlCData (n_value n))
| sf_comment i n : h_nodes h !! i = Some n -> n_type n = NComment -> stands_for E h i (XmlComment (n_value n))
| sf_pi i n : h_nodes h !! i = Some n -> n_type n = NProcessingInstruction ->
    stands_for E h i (XmlPI (name_to_string (n_name n)) (n_value n))
| sf_reference i n : h_nodes h !! i = Some n -> n_type n = NEntityReference ->
    stands_for E h i (XmlReference (name_to_string (n_name n)))
| sf_document i n decl kids :
    h_nodes h !! i = Some n -> n_type n = NDocument -> xml_declaration h i = Ok decl -> doc_type h i = Ok None ->
    Forall2 (stands_for E h) (n_children n) kids ->
    stands_for E h i (XmlDocument decl None kids)
| sf_document_typed i n decl t x kids :
    h_nodes h !! i = Some n -> n_type n = NDocument -> xml_declaration h i = Ok decl -> doc_type h i = Ok (Some t) ->
    stands_for E h t x -> Forall2 (stands_for E h) (n_children n) kids ->
    stands_for E h i (XmlDocument decl (Some x) kids)
| sf_doctype i n pub sys sub : h_nodes h !! i = Some n -> n_type n = NDocumentType ->
    n_ext n = XDocumentType [] [] pub sys sub ->
    stands_for E h i (XmlDocumentType (name_to_string (n_name n)) pub sys sub)
| sf_fragment i n kids : h_nodes h !! i = Some n -> n_type n = NDocumentFragment ->
    Forall2 (stands_for E h) (n_children n) kids -> stands_for E h i (XmlFragment kids)
| sf_attribute i p : attr_stands_for E h i p -> stands_for E h i (XmlAttribute p.1 p.2)
| sf_entity i n pub sys nota : h_nodes h !! i = Some n -> n_type n = NEntity -> n_ext n = XEntity pub sys nota ->
    stands_for E h i (XmlEntity (name_to_string (n_name n)) pub sys nota (n_value n))
| sf_notation i n pub sys : h_nodes h !! i = Some n -> n_type n = NNotation -> n_ext n = XNotation pub sys ->
    stands_for E h i (XmlNotation (name_to_string (n_name n)) pub sys).

(** ** How an abstract document is written; the attributes of an element come in any order. *)
Definition in_quotes (s : str) : str := lit """" ++ s ++ lit """".
Definition written_attr (p : str * str) (s : str) : Prop :=
  exists d, escaped p.2 d /\ s = p.1 ++ lit "=" ++ in_quotes d.
Definition after (label : str) (o : option str) : str :=
  match o with None => [] | Some s => label ++ in_quotes s end.
(** [PUBLIC "p" "s"], [PUBLIC "p"], [SYSTEM "s"] or nothing. *)
Definition external_id (pub sys : option str) : str :=
  match pub, sys with
  | Some p, Some s => lit " PUBLIC " ++ in_quotes p ++ lit " " ++ in_quotes s
  | Some p, None => lit " PUBLIC " ++ in_quotes p
  | None, Some s => lit " SYSTEM " ++ in_quotes s
  | None, None => []
  end.
Inductive written : xml -> str -> Prop :=
| wr_element name attrs attrs' parts kids texts :
    attrs ≡ₚ attrs' -> Forall2 written_attr attrs' parts -> Forall2 written kids texts ->
    written (XmlElement name attrs kids)
      (lit "<" ++ name ++ concat (map (app (lit " ")) parts) ++ lit ">" ++ concat texts ++ lit "</" ++ name ++ lit ">")
| wr_text v d : escaped v d -> written (XmlText (Some v)) d
| wr_no_text : written (XmlText None) []
| wr_cdata v : written (XmlCData (Some v)) (lit "<![CDATA[ " ++ v ++ lit " ]]>")
| wr_no_cdata : written (XmlCData None) []
| wr_comment v d : escaped v d -> written (XmlComment (Some v)) (lit "<!--" ++ d ++ lit "-->")
| wr_no_comment : written (XmlComment None) []
| wr_pi t d : written (XmlPI t (Some d)) (lit "<?" ++ t ++ lit " " ++ d ++ lit "?>")
| wr_pi_empty t : written (XmlPI t None) (lit "<?" ++ t ++ lit "?>")
| wr_reference n : written (XmlReference n) (lit "&" ++ n ++ lit ";")
| wr_document decl kids texts : Forall2 written kids texts ->
    written (XmlDocument decl None kids) (match decl with None => [] | Some d => xml_decl_to_string d end ++ concat texts)
| wr_document_typed decl x s kids texts : written x s -> Forall2 written kids texts ->
    written (XmlDocument decl (Some x) kids)
      (match decl with None => [] | Some d => xml_decl_to_string d end ++ s ++ concat texts)
| wr_doctype name pub sys sub :
    written (XmlDocumentType name pub sys sub)
      (lit "<!DOCTYPE " ++ name ++ after (lit " PUBLIC ") pub ++ after (lit " SYSTEM ") sys
       ++ match sub with None => [] | Some s => lit "[" ++ s ++ lit "]" end ++ lit ">")
| wr_fragment kids texts : Forall2 written kids texts ->
    written (XmlFragment kids) (lit "<![CDATA[#document-fragment " ++ concat texts ++ lit "]]>")
| wr_attribute name v s : written_attr (name, v) s -> written (XmlAttribute name v) s
| wr_entity name pub sys nota v :
    written (XmlEntity name pub sys nota v)
      (lit "<!ENTITY " ++ name
       ++ match pub, sys with None, None => lit " " ++ in_quotes (default [] v) | _, _ => external_id pub sys end
       ++ match nota with None => [] | Some x => lit " " ++ x end ++ lit ">")
| wr_notation name pub sys :
    written (XmlNotation name pub sys) (lit "<!NOTATION " ++ name ++ external_id pub sys ++ lit ">").

(** ** A reader for elements, text, comments, CDATA sections, processing instructions and attributes

    What it reads: elements with their attributes in the order written, runs of text with the
    numeric references resolved, comments, the text between [<![CDATA[] and the next []]>], the text
    between [<?] and [?>] (which must not contain [>]). *)
Inductive item :=
| Element (name : str) (attrs : list (str * str)) (kids : list item)
| Text (v : str)
| Comment (v : str)
| CData (v : str)
| Pi (s : str).

(** [s] up to the first [c], and what follows that [c]. *)
Fixpoint until (c : N) (s : str) : option (str * str) :=
  match s with
  | [] => None
  | x :: t => if (x =? c)%N then Some ([], t) else match until c t with None => None | Some (a, b) => Some (x :: a, b) end
  end.
(** [s] up to the first character failing [p], and the rest. *)
Fixpoint while (p : N -> bool) (s : str) : str * str :=
  match s with
  | [] => ([], [])
  | x :: t => if p x then let (a, b) := while p t in (x :: a, b) else ([], s)
  end.
(** [s] up to the first [p], and what follows that [p]. *)
Fixpoint until_all (p s : str) : option (str * str) :=
  match drop_prefix p s, s with
  | Some t, _ => Some ([], t)
  | None, [] => None
  | None, x :: t => match until_all p t with None => None | Some (a, b) => Some (x :: a, b) end
  end.
(** The character of a decimal reference, its text being [#], digits. *)
Fixpoint decimal (acc : N) (s : str) : option N :=
  match s with
  | [] => Some acc
  | c :: t => if (48 <=? c)%N && (c <=? 57)%N then decimal (acc * 10 + (c - 48)) t else None
  end.
Definition referenced (s : str) : option N :=
  match drop_prefix (lit "#") s with Some (c :: t) => decimal 0 (c :: t) | _ => None end.
(** Replaces the decimal references; [pending] is the (reversed) text of the one being read. *)
Fixpoint decoded (pending : option str) (s : str) : option str :=
  match s with
  | [] => match pending with None => Some [] | Some _ => None end
  | c :: t =>
      match pending with
      | None => if (c =? 38)%N then decoded (Some []) t else match decoded None t with None => None | Some r => Some (c :: r) end
      | Some p =>
          if (c =? 59)%N
          then match referenced (rev p), decoded None t with Some x, Some r => Some (x :: r) | _, _ => None end
          else decoded (Some (c :: p)) t
      end
  end.
(** [name="value"] after each space, up to [>]. *)
Fixpoint read_attrs (fuel : nat) (s : str) : option (list (str * str) * str) :=
  match fuel with
  | O => None
  | S k =>
      match drop_prefix (lit ">") s, drop_prefix (lit " ") s with
      | Some t, _ => Some ([], t)
      | None, Some t =>
          match until 61 t with
          | Some (name, t1) =>
              match drop_prefix (lit """") t1 with
              | Some t2 =>
                  match until 34 t2 with
                  | Some (d, t3) =>
                      match decoded None d, read_attrs k t3 with
                      | Some v, Some (more, rest) => Some ((name, v) :: more, rest)
                      | _, _ => None
                      end
                  | None => None
                  end
              | None => None
              end
          | None => None
          end
      | None, None => None
      end
  end.
(** Reads up to the end, or up to an end tag, which it leaves. *)
Fixpoint read_content (fuel : nat) (s : str) : option (list item * str) :=
  match fuel with
  | O => None
  | S k =>
      match s, drop_prefix (lit "</") s, drop_prefix (lit "<!--") s, drop_prefix (lit "<![CDATA[") s, drop_prefix (lit "<?") s, drop_prefix (lit "<") s with
      | [], _, _, _, _, _ => Some ([], [])
      | _, Some _, _, _, _, _ => Some ([], s)
      | _, _, _, Some t, _, _ =>
          match until_all (lit "]]>") t with
          | Some (v, rest) => match read_content k rest with Some (more, out) => Some (CData v :: more, out) | None => None end
          | None => None
          end
      | _, _, _, _, Some t, _ =>
          match until 62 t with
          | Some (body, rest) =>
              match drop_prefix (lit "?") (rev body), read_content k rest with
              | Some r, Some (more, out) => Some (Pi (rev r) :: more, out)
              | _, _ => None
              end
          | None => None
          end
      | _, _, Some t, _, _, _ =>
          match until 62 t with
          | Some (body, rest) =>
              match drop_prefix (lit "--") (rev body) with
              | Some r =>
                  match decoded None (rev r), read_content k rest with
                  | Some v, Some (more, out) => Some (Comment v :: more, out)
                  | _, _ => None
                  end
              | None => None
              end
          | None => None
          end
      | _, _, _, _, _, Some t =>
          let (name, t1) := while (fun c => negb ((c =? 32) || (c =? 62))%N) t in
          match read_attrs k t1 with
          | Some (attrs, t2) =>
              match read_content k t2 with
              | Some (kids, t3) =>
                  match drop_prefix (lit "</" ++ name ++ lit ">") t3 with
                  | Some t4 => match read_content k t4 with Some (more, out) => Some (Element name attrs kids :: more, out) | None => None end
                  | None => None
                  end
              | None => None
              end
          | None => None
          end
      | _, None, None, None, None, None =>
          let (d, t) := while (fun c => negb (c =? 60)%N) s in
          match decoded None d, read_content k t with
          | Some v, Some (more, out) => Some (Text v :: more, out)
          | _, _ => None
          end
      end
  end.
Definition read_back (s : str) : option (list item) :=
  match read_content (S (length s)) s with Some (l, []) => Some l | _ => None end.

(** ** What should be read back: adjacent text runs together, empty text and absent values vanish;
    a CDATA section has a space more at each end. *)
Definition pi_body (t : str) (d : option str) : str := match d with None => t | Some v => t ++ lit " " ++ v end.
Definition add_text (v : str) (l : list item) : list item :=
  match v, l with
  | [], _ => l
  | _, Text w :: r => Text (v ++ w) :: r
  | _, _ => Text v :: l
  end.
Fixpoint add_items (x : xml) (l : list item) : list item :=
  match x with
  | XmlElement name attrs kids => Element name attrs (fold_right add_items [] kids) :: l
  | XmlText v => add_text (default [] v) l
  | XmlComment (Some v) => Comment v :: l
  | XmlCData (Some v) => CData (lit " " ++ v ++ lit " ") :: l
  | XmlPI t d => Pi (pi_body t d) :: l
  | _ => l
  end.
(** Elements, text and comments only. *)
Inductive bare : xml -> Prop :=
| ba_element name attrs kids : Forall bare kids -> bare (XmlElement name attrs kids)
| ba_text v : bare (XmlText v)
| ba_comment v : bare (XmlComment v).
(** Also CDATA sections and processing instructions that do not contain what ends them (and no [>] in
    the data of instructions). *)
Inductive plain : xml -> Prop :=
| pl_element name attrs kids : Forall plain kids -> plain (XmlElement name attrs kids)
| pl_text v : plain (XmlText v)
| pl_comment v : plain (XmlComment v)
| pl_cdata v : (forall s a b, v = Some s -> s <> a ++ lit "]]>" ++ b) -> plain (XmlCData v)
| pl_pi t d : (forall s, d = Some s -> ~ In 62%N s) -> plain (XmlPI t d).
(** The same items up to the order of attributes. *)
Inductive same_item : item -> item -> Prop :=
| same_element name attrs attrs' kids kids' : attrs ≡ₚ attrs' -> Forall2 same_item kids kids' ->
    same_item (Element name attrs kids) (Element name attrs' kids')
| same_text v : same_item (Text v) (Text v)
| same_comment v : same_item (Comment v) (Comment v)
| same_cdata v : same_item (CData v) (CData v)
| same_pi s : same_item (Pi s) (Pi s).
(** The values of all attributes at or below [i] can be read (see C04 to C06 for when that fails). *)
Definition readable (E : env) (h : heap) (a : id) : Prop := exists o, attr_value E h a = Ok o.
Definition values_readable (E : env) (h : heap) (i : id) : Prop := forall j, at_or_below h i j ->
  (node_type_of h j = Ok NAttribute -> readable E h j) /\
  forall attrs k a, attributes h j = Ok attrs -> In (k, a) attrs -> readable E h a.
(** Two environments that differ at most in the hash orders (and in debug or release build). *)
Definition but_hash_order (E E' : env) : Prop :=
  (forall c, e_letter E c = e_letter E' c) /\ (forall c, e_digit E c = e_digit E' c).
(** The number of tags and comments in a written document of elements, text and comments. *)
Fixpoint tags (x : xml) : nat :=
  match x with
  | XmlElement _ _ kids => 2 + list_sum (map tags kids)
  | XmlComment (Some _) => 1
  | _ => 0
  end.
Definition occurrences (c : N) (s : str) : nat := length (List.filter (N.eqb c) s).
(** No element with two attributes. *)
Inductive few_attrs : xml -> Prop :=
| fa_element name attrs kids : (length attrs <= 1)%nat -> Forall few_attrs kids -> few_attrs (XmlElement name attrs kids)
| fa_text v : few_attrs (XmlText v)
| fa_comment v : few_attrs (XmlComment v)
| fa_cdata v : few_attrs (XmlCData v)
| fa_pi t d : few_attrs (XmlPI t d)
| fa_reference n : few_attrs (XmlReference n)
| fa_document d kids : Forall few_attrs kids -> few_attrs (XmlDocument d None kids).
