(** * SpecParse: documents as trees, the events the reader delivers for them, and what the heap
    must look like once they have been read *)
From Verif Require Export SpecShow Parser.

(** A parsed item.  Attributes are (name, value after the reader's unescaping), in document order. *)
Inductive pnode :=
| PElement (name : str) (attrs : list (str * str)) (kids : list pnode)  (** [<n a="v">...</n>] *)
| PEmptyElement (name : str) (attrs : list (str * str))                 (** [<n a="v"/>] *)
| PText (s : str)
| PCData (s : str)
| PComment (s : str)
| PPi (text : str).                                                     (** what stands between [<?] and [?>] *)

(** ** The events of an item, in the order of the text *)
Definition attr_event (p : str * str) : pattr := PAttr p.1 p.2.
Fixpoint events_of (x : pnode) : list event :=
  match x with
  | PElement n l kids => EStart (Some n) (map attr_event l) :: concat (map events_of kids) ++ [EEnd]
  | PEmptyElement n l => [EEmpty (Some n) (map attr_event l)]
  | PText s => [EText (Some s)]
  | PCData s => [ECData (Some s)]
  | PComment s => [EComment (Some s)]
  | PPi s => [EPI (Some s)]
  end.
Definition events_of_all (l : list pnode) : list event := concat (map events_of l).

(** ** What may be read *)
(** [<?text?>] has this target and this data: the data is what follows the first space, without the
    white space around it; nothing is left means no data. *)
Definition unicode_white (c : N) : Prop :=
  (9 <= c <= 13 \/ c = 32 \/ c = 133 \/ c = 160 \/ c = 5760 \/ 8192 <= c <= 8202 \/ 8232 <= c <= 8233 \/ c = 8239 \/ c = 8287 \/ c = 12288)%N.
Definition stripped (s t : str) : Prop :=
  exists a b, s = a ++ t ++ b /\ Forall unicode_white a /\ Forall unicode_white b /\
    (forall c u, t = c :: u -> ~ unicode_white c) /\ (forall c u, t = u ++ [c] -> ~ unicode_white c).
Inductive pi_text : str -> str -> option str -> Prop :=
| pt_bare t : ~ In 32%N t -> pi_text t t None
| pt_blank t s : ~ In 32%N t -> stripped s [] -> pi_text (t ++ 32%N :: s) t None
| pt_data t s d : ~ In 32%N t -> stripped s d -> d <> [] -> pi_text (t ++ 32%N :: s) t (Some d).

Definition good_attrs (l : list (str * str)) : Prop :=
  NoDup (map fst l) /\ Forall (fun p => exists k, plain_name p.1 k) l.
Inductive readable : pnode -> Prop :=
| rd_element n k l kids : plain_name n k -> good_attrs l -> Forall readable kids -> readable (PElement n l kids)
| rd_empty n k l : plain_name n k -> good_attrs l -> readable (PEmptyElement n l)
| rd_text s : readable (PText s)
| rd_cdata s : readable (PCData s)
| rd_comment s : readable (PComment s)
| rd_pi s t k d : pi_text s t d -> plain_name t k -> ~ xml_target t -> readable (PPi s).

(** At the top: elements (at most one), comments, processing instructions. *)
Definition is_element (x : pnode) : bool := match x with PElement _ _ _ | PEmptyElement _ _ => true | _ => false end.
Definition top_item (x : pnode) : Prop := match x with PText _ | PCData _ => False | _ => True end.
Definition one_root (l : list pnode) : Prop := (length (List.filter is_element l) <= 1)%nat.

(** ** Ids: the values of the xml:id attributes, in document order *)
Definition is_xml_id (p : str * str) : bool := bool_decide (p.1 = lit "xml:id").
Definition attr_ids (l : list (str * str)) : list str := map snd (List.filter is_xml_id l).
Fixpoint raw_ids (x : pnode) : list str :=
  match x with
  | PElement _ l kids => attr_ids l ++ concat (map raw_ids kids)
  | PEmptyElement _ l => attr_ids l
  | _ => []
  end.
Definition raw_ids_all (l : list pnode) : list str := concat (map raw_ids l).
(** The value an attribute shows for the text it stores. *)
Definition shown (E : env) (raw d : str) : Prop :=
  exists l t0 t, line_ends_normalised raw l /\ expands E l t0 /\ trimmed t0 t /\ escaped t d.

(** ** The nodes an item becomes

    [look] finds nodes, [reg w e] says that the id [w] is recorded for [e]; [d] is the document, [q] the
    parent. *)
Section holds.
  Context (E : env) (look : id -> option node) (reg : str -> id -> Prop) (d : id).
  Definition holds_attr (e : id) (ka : Name * id) (p : str * str) : Prop :=
    plain_name p.1 ka.1 /\
    (exists t, look ka.2 = Some (mkNode NAttribute ka.1 None None (Some d) [t] (XAttribute (Some e))) /\
               look t = Some (mkNode NText name_for_text (Some p.2) None (Some d) [] XNone)) /\
    (p.1 = lit "xml:id" -> exists w, shown E p.2 w /\ reg w e).
  Inductive holds : id -> id -> pnode -> Prop :=
  | ho_element q i n k al l cs kids : plain_name n k ->
      look i = Some (mkNode NElement k None (Some q) (Some d) cs (XElement al [])) ->
      Forall2 (holds_attr i) al l -> Forall2 (holds i) cs kids -> holds q i (PElement n l kids)
  | ho_empty q i n k al l : plain_name n k ->
      look i = Some (mkNode NElement k None (Some q) (Some d) [] (XElement al [])) ->
      Forall2 (holds_attr i) al l -> holds q i (PEmptyElement n l)
  | ho_text q i s : look i = Some (mkNode NText name_for_text (Some s) (Some q) (Some d) [] XNone) -> holds q i (PText s)
  | ho_cdata q i s : look i = Some (mkNode NCData name_for_cdata (Some s) (Some q) (Some d) [] XNone) -> holds q i (PCData s)
  | ho_comment q i s : look i = Some (mkNode NComment name_for_comment (Some s) (Some q) (Some d) [] XNone) -> holds q i (PComment s)
  | ho_pi q i s t k v : pi_text s t v -> plain_name t k ->
      look i = Some (mkNode NProcessingInstruction k v (Some q) (Some d) [] XNone) -> holds q i (PPi s).
End holds.

(** ** The XML declaration *)
Definition quoted_or_not (s v : str) : Prop := s = v \/ s = lit """" ++ v ++ lit """" \/ s = lit "'" ++ v ++ lit "'".
Inductive declares : event -> xml_decl -> Prop :=
| dc s v V enc e sta b :
    quoted_or_not s v -> (v = lit "1.0" /\ V = V10 \/ v = lit "1.1" /\ V = V11) ->
    (enc = None /\ e = None \/ exists x, enc = Some (Some x) /\ encoding_name x /\ e = Some x) ->
    (sta = None /\ b = None \/ exists x y, sta = Some (Some x) /\ b = Some y /\ (y = true <-> x = lit "yes")) ->
    declares (EDecl (Some s) enc sta) (mkDecl V e b).
Inductive declared : list event -> option xml_decl -> Prop :=
| dd_none : declared [] None
| dd_some ev D : declares ev D -> declared [ev] (Some D).

(** ** What comes back *)
(** [h'] is [h] with one new document, [d], made of [items]; its ids are [ids]. *)
Record read_into (E : env) (h h' : heap) (d : id) (D : option xml_decl) (items : list pnode) (ids : list str) : Prop := {
  ri_old : forall i, (i < h_next h)%nat -> h_nodes h' !! i = h_nodes h !! i;
  ri_new : (h_next h <= d < h_next h')%nat;
  ri_doc : exists l m o, h_nodes h' !! d = Some (mkNode NDocument name_for_document None None None l (XDocument D None m o))
    /\ map fst m = ids
    /\ Forall2 (holds E (fun i => h_nodes h' !! i) (fun w e => In (w, e) m) d d) l items }.

(** ** Reading what was read: the document as printed (see SpecShow) *)
(** The value of an attribute, before it is escaped for display. *)
Definition denotes (E : env) (raw t : str) : Prop :=
  exists l t0, line_ends_normalised raw l /\ expands E l t0 /\ trimmed t0 t.
Inductive as_xml (E : env) : pnode -> xml -> Prop :=
| ax_element n l avs kids xs : Forall2 (fun p q => q.1 = p.1 /\ denotes E p.2 q.2) l avs -> Forall2 (as_xml E) kids xs ->
    as_xml E (PElement n l kids) (XmlElement n avs xs)
| ax_empty n l avs : Forall2 (fun p q => q.1 = p.1 /\ denotes E p.2 q.2) l avs -> as_xml E (PEmptyElement n l) (XmlElement n avs [])
| ax_text s : as_xml E (PText s) (XmlText (Some s))
| ax_cdata s : as_xml E (PCData s) (XmlCData (Some s))
| ax_comment s : as_xml E (PComment s) (XmlComment (Some s))
| ax_pi s t d : pi_text s t d -> as_xml E (PPi s) (XmlPI t d).

(** ** Input that is cut off, or goes wrong, inside the document element *)
(** The content read so far of an open element: complete items, then possibly an element still open. *)
Inductive open_content := Open (kids : list pnode) (inner : option (str * list (str * str) * open_content)).
Fixpoint open_events (c : open_content) : list event :=
  match c with
  | Open kids None => events_of_all kids
  | Open kids (Some (n, l, c)) => events_of_all kids ++ EStart (Some n) (map attr_event l) :: open_events c
  end.
(** The items the open elements become when they are closed at once. *)
Fixpoint closed (c : open_content) : list pnode :=
  match c with
  | Open kids None => kids
  | Open kids (Some (n, l, c)) => kids ++ [PElement n l (closed c)]
  end.
(** The same with further complete items in the innermost open element. *)
Fixpoint and_then (c : open_content) (x : list pnode) : open_content :=
  match c with
  | Open kids None => Open (kids ++ x) None
  | Open kids (Some (n, l, c)) => Open kids (Some (n, l, and_then c x))
  end.
(** Events that cannot be accepted inside an element: reader errors, undecodable text, a declaration,
    a document type. *)
Inductive unacceptable : event -> Prop :=
| un_error : unacceptable EError
| un_doctype : unacceptable EDocType
| un_decl v e s : unacceptable (EDecl v e s)
| un_text : unacceptable (EText None)
| un_cdata : unacceptable (ECData None)
| un_comment : unacceptable (EComment None)
| un_pi : unacceptable (EPI None)
| un_start l : unacceptable (EStart None l)
| un_empty l : unacceptable (EEmpty None l).
(** Events after that: end tags, and items that may stand at the top, other than elements. *)
Definition misc_item (x : pnode) : Prop := match x with PComment _ | PPi _ => True | _ => False end.
Fixpoint misc_events (l : list (option pnode)) : list event :=
  match l with
  | [] => []
  | None :: l => EEnd :: misc_events l
  | Some x :: l => events_of x ++ misc_events l
  end.
Definition misc_items (l : list (option pnode)) : list pnode := omap (fun o => o) l.
(** Attributes that are refused, and the error that is reported for them at the top. *)
Inductive attr_fault : pattr -> perror -> Prop :=
| af_value : attr_fault PAttrBadValue PEQuickXml
| af_syntax n v : syntax_fault n -> attr_fault (PAttr n v) (PEDom Syntax)
| af_character n v : character_fault n -> attr_fault (PAttr n v) (PEDom InvalidCharacter).
(** A tag for an element [n] with the attributes [l] and then a refused one. *)
Inductive broken_tag (n : str) (l : list (str * str)) : event -> perror -> Prop :=
| bt_start a more err : attr_fault a err -> broken_tag n l (EStart (Some n) (map attr_event l ++ a :: more)) err
| bt_empty a more err : attr_fault a err -> broken_tag n l (EEmpty (Some n) (map attr_event l ++ a :: more)) err.
(** What is wrong at the top, and the error that is reported for it. *)
Inductive top_fault : option xml_decl -> bool -> event -> perror -> Prop :=
| tf_error D b : top_fault D b EError PEQuickXml
| tf_doctype D b : top_fault D b EDocType PEMalformed
| tf_text D b t : top_fault D b (EText t) PEMalformed
| tf_cdata D b t : top_fault D b (ECData t) PEMalformed
| tf_decl D b v e s : top_fault (Some D) b (EDecl v e s) PEMalformed
| tf_comment D b : top_fault D b (EComment None) PEQuickXml
| tf_pi D b : top_fault D b (EPI None) PEQuickXml
| tf_start D b l : top_fault D b (EStart None l) PEQuickXml
| tf_empty D b l : top_fault D b (EEmpty None l) PEQuickXml
| tf_second D n k l : plain_name n k -> top_fault D true (EStart (Some n) l) (PEDom HierarchyRequest)
| tf_second_empty D n k l : plain_name n k -> top_fault D true (EEmpty (Some n) l) (PEDom HierarchyRequest).
