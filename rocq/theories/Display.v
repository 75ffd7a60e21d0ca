(** * Display: src/shared/display.rs (the [Display] instance of [RefNode]) *)
From Verif Require Export NsModel.

Definition quoted (s : str) : str := C_QUOT :: s ++ [C_QUOT].

(** display.rs 29-36 *)
Definition fmt_attribute (E : env) (h : heap) (i : id) : res str :=
  let? n := get_node h i in
  let? v := attr_value E h i in
  Ok (name_to_string (n_name n) ++ lit "=" ++ quoted (match v with Some s => s | None => [] end)).

(** display.rs 38-43, 45-50, 62-70 *)
Definition fmt_text (h : heap) (i : id) : res str :=
  let? d := data h i in Ok match d with None => [] | Some s => s end.
Definition fmt_cdata (h : heap) (i : id) : res str :=
  let? d := data h i in
  Ok match d with None => [] | Some s => lit "<![CDATA[ " ++ s ++ lit " ]]>" end.
Definition fmt_comment (h : heap) (i : id) : res str :=
  let? d := data h i in
  Ok match d with None => [] | Some s => lit "<!--" ++ s ++ lit "-->" end.

(** display.rs 52-60; [data] and [target] are traits.rs 1768-1770 and 1791-1793 *)
Definition fmt_processing_instruction (n : node) : str :=
  match n_value n with
  | None => lit "<?" ++ name_to_string (n_name n) ++ lit "?>"
  | Some d => lit "<?" ++ name_to_string (n_name n) ++ lit " " ++ d ++ lit "?>"
  end.

Definition fmt_opt (label : str) (o : option str) : str :=
  match o with None => [] | Some s => lit " " ++ label ++ lit " " ++ quoted s end.

(** display.rs 122-138 *)
Definition fmt_entity (n : node) : str :=
  let '(pub, sys, nota) := match n_ext n with XEntity p s x => (p, s, x) | _ => (None, None, None) end in
  lit "<!ENTITY " ++ name_to_string (n_name n)
  ++ match pub, sys with
     | None, None => lit " " ++ quoted (match n_value n with Some v => v | None => [] end)
     | Some p, None => lit " PUBLIC " ++ quoted p
     | Some p, Some s => lit " PUBLIC " ++ quoted p ++ lit " " ++ quoted s
     | None, Some s => lit " SYSTEM " ++ quoted s
     end
  ++ match nota with Some x => lit " " ++ x | None => [] end
  ++ lit ">".
(** display.rs 153-164 *)
Definition fmt_notation (n : node) : str :=
  let '(pub, sys) := match n_ext n with XNotation p s => (p, s) | _ => (None, None) end in
  lit "<!NOTATION " ++ name_to_string (n_name n)
  ++ match pub, sys with
     | None, None => []
     | Some p, None => lit " PUBLIC " ++ quoted p
     | Some p, Some s => lit " PUBLIC " ++ quoted p ++ lit " " ++ quoted s
     | None, Some s => lit " SYSTEM " ++ quoted s
     end
  ++ lit ">".

Definition fmt_list {A} (f : A -> res str) (l : list A) : res str :=
  let? parts := concat_res (fun x => let? s := f x in Ok [s]) l in Ok (concat parts).

(** display.rs 11-27, 72-120, 140-151 and the dispatch 166-183.  The three recursive cases (element,
    document, fragment) go through the children; the document also renders its doctype, the doctype
    its entities and notations.  The iteration order of the maps comes from the environment. *)
Fixpoint fmt_node (fuel : nat) (E : env) (h : heap) (i : id) : res str :=
  match fuel with
  | O => Diverge
  | S k =>
      let? n := get_node h i in
      let name := name_to_string (n_name n) in
      match n_type n with
      | NElement =>
          let? attrs := attributes h i in
          let? a := fmt_list (fun p => let? s := fmt_node k E h p.2 in Ok (lit " " ++ s)) (e_ord_attr E attrs) in
          let? c := fmt_list (fmt_node k E h) (n_children n) in
          Ok (lit "<" ++ name ++ a ++ lit ">" ++ c ++ lit "</" ++ name ++ lit ">")
      | NAttribute => fmt_attribute E h i
      | NText => fmt_text h i
      | NCData => fmt_cdata h i
      | NProcessingInstruction => Ok (fmt_processing_instruction n)
      | NComment => fmt_comment h i
      | NDocument =>
          let? decl := xml_declaration h i in
          let? dt := doc_type h i in
          let? dts := match dt with None => Ok [] | Some t => fmt_node k E h t end in
          let? c := fmt_list (fmt_node k E h) (n_children n) in
          Ok (match decl with Some d => xml_decl_to_string d | None => [] end ++ dts ++ c)
      | NDocumentType =>
          let '(ents, nots, pub, sys, sub) :=
            match n_ext n with
            | XDocumentType e t p s x => (e, t, p, s, x)
            | _ => ([], [], None, None, None)
            end in
          let? es := fmt_list (fun p => fmt_node k E h p.2) (e_ord_attr E ents) in
          let? ns := fmt_list (fun p => fmt_node k E h p.2) (e_ord_attr E nots) in
          Ok (lit "<!DOCTYPE " ++ name ++ fmt_opt (lit "PUBLIC") pub ++ fmt_opt (lit "SYSTEM") sys
              ++ (if negb (is_nil ents && is_nil nots)
                     || match sub with Some _ => true | None => false end
                  then lit "[" ++ es ++ ns ++ match sub with Some s => s | None => [] end ++ lit "]"
                  else [])
              ++ lit ">")
      | NDocumentFragment =>
          let? c := fmt_list (fmt_node k E h) (n_children n) in
          Ok (lit "<![CDATA[" ++ name ++ lit " " ++ c ++ lit "]]>")
      | NEntity => Ok (fmt_entity n)
      | NEntityReference => Ok (lit "&" ++ name ++ lit ";")
      | NNotation => Ok (fmt_notation n)
      end
  end.

(** [node.to_string()] *)
Definition to_string (E : env) (h : heap) (i : id) : res str := fmt_node (S (walk_fuel h)) E h i.
