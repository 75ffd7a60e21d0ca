(** * Parser: src/parser/mod.rs

    The reader (quick-xml) is not modelled: its input is the sequence of events it delivers, after
    which it delivers [Eof] for ever.  What each event carries is what the code reads from it, with
    the decoding and unescaping failures of quick-xml made explicit. *)
From Verif Require Export Display.

(** mod.rs 42-55 *)
Inductive perror := PEInvalidCharacter | PEMalformed | PEDom (e : error) | PEQuickXml.
Inductive pres (A : Type) :=
| POk (a : A) | PErr (e : perror) | PPanic (p : panic) | PDiverge.
Arguments POk {A}. Arguments PErr {A}. Arguments PPanic {A}. Arguments PDiverge {A}.

(** One item of [ev.attributes()]. *)
Inductive pattr :=
| PAttr (name value : str)   (** decoded name, decoded and unescaped value *)
| PAttrMalformed             (** the iterator yields an error: 261 unwraps it *)
| PAttrBadValue.             (** value or name cannot be decoded: 262-263 *)

(** What [read_event_into] can return.  [None] is a decoding or unescaping failure. *)
Inductive event :=
| EDecl (version : option str) (encoding standalone : option (option str))
| EStart (name : option str) (attrs : list pattr)
| EEmpty (name : option str) (attrs : list pattr)
| EEnd
| EComment (text : option str)
| EPI (text : option str)
| EText (text : option str)
| ECData (text : option str)
| EDocType
| EError.

(** Parser computations thread the heap. *)
Definition PM (A : Type) := heap -> heap * pres A.
Definition pret {A} (a : A) : PM A := fun h => (h, POk a).
Definition pfail {A} (e : perror) : PM A := fun h => (h, PErr e).
Definition pbind {A B} (m : PM A) (k : A -> PM B) : PM B := fun h =>
  match m h with
  | (h', POk a) => k a h'
  | (h', PErr e) => (h', PErr e)
  | (h', PPanic p) => (h', PPanic p)
  | (h', PDiverge) => (h', PDiverge)
  end.
Notation "'dop?' x ':=' m 'in' k" := (pbind m (fun x => k))
  (at level 200, x pattern, right associativity).
(** A DOM call followed by [?] ([From<DOMError>]). *)
Definition pdom {A} (m : M A) : PM A := fun h =>
  match m h with
  | (h', Ok a) => (h', POk a)
  | (h', Err e) => (h', PErr (PEDom e))
  | (h', Panic p) => (h', PPanic p)
  | (h', Diverge) => (h', PDiverge)
  end.
(** A DOM call followed by [.unwrap()]. *)
Definition pdom_unwrap {A} (m : M A) : PM A := pdom (err_to_panic PUnwrap m).
(** A quick-xml conversion followed by [?]. *)
Definition pdecode (o : option str) : PM str :=
  match o with Some s => pret s | None => pfail PEQuickXml end.
Definition punwrap {A} (o : option A) : PM A := fun h =>
  match o with Some a => (h, POk a) | None => (h, PPanic PUnwrap) end.

(** mod.rs 260-266 *)
Fixpoint handle_attributes (E : env) (doc el : id) (l : list pattr) : PM unit :=
  match l with
  | [] => pret tt
  | PAttrMalformed :: _ => fun h => (h, PPanic PUnwrap)
  | PAttrBadValue :: _ => pfail PEQuickXml
  | PAttr name value :: t =>
      dop? a := pdom (create_attribute_with doc name value) in
      dop? _ := pdom (set_attribute_node E el a) in
      handle_attributes E doc el t
  end.
(** mod.rs 243-269 *)
Definition handle_start (E : env) (doc parent : id) (name : option str) (attrs : list pattr) : PM id :=
  dop? name := pdecode name in
  dop? el := pdom_unwrap (create_element doc name) in
  dop? el := pdom (append_child parent el) in
  dop? _ := handle_attributes E doc el attrs in
  pret el.
(** mod.rs 284-328 *)
Definition handle_comment (doc parent : id) (text : option str) : PM id :=
  dop? text := pdecode text in
  dop? n := pdom (create_comment doc text) in pdom (append_child parent n).
Definition handle_text (doc parent : id) (text : option str) : PM id :=
  dop? text := pdecode text in
  dop? n := pdom (create_text_node doc text) in pdom (append_child parent n).
Definition handle_cdata (doc parent : id) (text : option str) : PM id :=
  dop? text := pdecode text in
  dop? n := pdom_unwrap (create_cdata_section doc text) in pdom (append_child parent n).

(** [char::is_whitespace] (Unicode White_Space), used by [str::trim]. *)
Definition is_white_space (c : N) : bool :=
  in_range 9 13 c || (c =? 32)%N || (c =? 133)%N || (c =? 160)%N || (c =? 5760)%N
  || in_range 8192 8202 c || in_range 8232 8233 c || (c =? 8239)%N || (c =? 8287)%N || (c =? 12288)%N.
Fixpoint drop_white (s : str) : str :=
  match s with
  | [] => []
  | c :: t => if is_white_space c then drop_white t else s
  end.
Definition trim (s : str) : str := rev (drop_white (rev (drop_white s))).
(** [text.splitn(2, ' ')]: the part before the first space, and the rest if there is a space. *)
Fixpoint split_once (sep : N) (s : str) : str * option str :=
  match s with
  | [] => ([], None)
  | c :: t => if (c =? sep)%N then ([], Some t)
              else let '(a, b) := split_once sep t in (c :: a, b)
  end.
(** mod.rs 338-350 *)
Definition pi_parts (text : str) : str * option str :=
  match split_once C_SPACE text with
  | (target, None) => (target, None)
  | (target, Some d) => let d := trim d in (target, if is_nil d then None else Some d)
  end.
(** mod.rs 330-364 *)
Definition handle_pi (doc parent : id) (text : option str) : PM id :=
  dop? text := pdecode text in
  let '(target, d) := pi_parts text in
  dop? n := pdom_unwrap (create_processing_instruction doc target d) in
  pdom (append_child parent n).

(** mod.rs 378-403: the version is unquoted, the other two are not. *)
Definition make_decl (version : option str) (encoding standalone : option (option str))
  : PM (str * option str * option bool) :=
  dop? v := punwrap version in
  dop? v := (fun h => match unquote v with
                      | Ok s => (h, POk s)
                      | Err _ => (h, PErr PEInvalidCharacter)
                      | Panic p => (h, PPanic p)
                      | Diverge => (h, PDiverge)
                      end) in
  dop? e := match encoding with None => pret None | Some o => dop? s := punwrap o in pret (Some s) end in
  dop? s := match standalone with
            | None => pret None
            | Some o => dop? s := punwrap o in pret (Some (str_eqb s (lit "yes")))
            end in
  pret (v, e, s).
(** mod.rs 127-145 *)
Definition handle_decl (doc : id) (version : option str) (encoding standalone : option (option str)) : PM unit :=
  dop? old := pdom (lift (fun h => xml_declaration h doc)) in
  match old with
  | Some _ => pfail PEMalformed
  | None =>
      dop? r := make_decl version encoding standalone in
      dop? v := punwrap (version_from_str r.1.1) in
      dop? d := pdom (lift (fun _ => xml_decl_new v r.1.2 r.2)) in
      pdom (set_xml_declaration doc d)
  end.

(** mod.rs 198-239: reads events up to the end of the element; also returns the events left. *)
Fixpoint element (fuel : nat) (E : env) (doc parent : id) (evs : list event) (h : heap)
  : heap * list event * pres id :=
  match fuel with
  | O => (h, evs, PDiverge)
  | S k =>
      let step {A} (m : PM A) (rest : list event) : heap * list event * pres id :=
        match m h with
        | (h', POk _) => element k E doc parent rest h'
        | (h', PErr e) => (h', rest, PErr e)
        | (h', PPanic p) => (h', rest, PPanic p)
        | (h', PDiverge) => (h', rest, PDiverge)
        end in
      match evs with
      | [] => (h, [], PErr PEMalformed)
      | EStart name attrs :: rest =>
          match handle_start E doc parent name attrs h with
          | (h', POk el) =>
              match element k E doc el rest h' with
              | (h'', rest', POk _) => element k E doc parent rest' h''
              | r => r
              end
          | (h', PErr e) => (h', rest, PErr e)
          | (h', PPanic p) => (h', rest, PPanic p)
          | (h', PDiverge) => (h', rest, PDiverge)
          end
      | EEmpty name attrs :: rest => step (handle_start E doc parent name attrs) rest
      | EEnd :: rest => (h, rest, POk parent)
      | EComment t :: rest => step (handle_comment doc parent t) rest
      | EPI t :: rest => step (handle_pi doc parent t) rest
      | EText t :: rest => step (handle_text doc parent t) rest
      | ECData t :: rest => step (handle_cdata doc parent t) rest
      | EDecl _ _ _ :: rest => (h, rest, PErr PEMalformed)
      | EDocType :: rest => (h, rest, PErr PEMalformed)
      | EError :: rest => (h, rest, PErr PEQuickXml)
      end
  end.

(** mod.rs 121-185: the result of [element] is dropped at 148. *)
Fixpoint document_loop (fuel : nat) (E : env) (doc : id) (evs : list event) (h : heap) : heap * pres id :=
  match fuel with
  | O => (h, PDiverge)
  | S k =>
      let step {A} (m : PM A) (rest : list event) : heap * pres id :=
        match m h with
        | (h', POk _) => document_loop k E doc rest h'
        | (h', PErr e) => (h', PErr e)
        | (h', PPanic p) => (h', PPanic p)
        | (h', PDiverge) => (h', PDiverge)
        end in
      match evs with
      | [] => (h, POk doc)
      | EDecl v e s :: rest => step (handle_decl doc v e s) rest
      | EStart name attrs :: rest =>
          match handle_start E doc doc name attrs h with
          | (h', POk el) =>
              match element (S (length rest)) E doc el rest h' with
              | (h'', rest', POk _) => document_loop k E doc rest' h''
              | (h'', rest', PErr _) => document_loop k E doc rest' h''
              | (h'', _, PPanic p) => (h'', PPanic p)
              | (h'', _, PDiverge) => (h'', PDiverge)
              end
          | (h', PErr e) => (h', PErr e)
          | (h', PPanic p) => (h', PPanic p)
          | (h', PDiverge) => (h', PDiverge)
          end
      | EEmpty name attrs :: rest => step (handle_start E doc doc name attrs) rest
      | EEnd :: rest => document_loop k E doc rest h
      | EComment t :: rest => step (handle_comment doc doc t) rest
      | EPI t :: rest => step (handle_pi doc doc t) rest
      | EText _ :: _ => (h, PErr PEMalformed)
      | ECData _ :: _ => (h, PErr PEMalformed)
      | EDocType :: _ => (h, PErr PEMalformed)
      | EError :: _ => (h, PErr PEQuickXml)
      end
  end.

(** [read_xml] / [read_reader], mod.rs 70-80 and 92-98. *)
Definition read_events (E : env) (evs : list event) (h : heap) : heap * pres id :=
  match pdom_unwrap (create_document None None None) h with
  | (h', POk doc) => document_loop (S (length evs)) E doc evs h'
  | (h', PErr e) => (h', PErr e)
  | (h', PPanic p) => (h', PPanic p)
  | (h', PDiverge) => (h', PDiverge)
  end.
