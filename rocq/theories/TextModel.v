(** * TextModel: src/shared/syntax.rs and src/shared/text.rs *)
From Verif Require Export Base.

(** The parts of the environment the code does not determine itself:
    - [e_checked]: overflow checks on (debug profile) or off (release profile);
    - [e_letter], [e_digit]: the Unicode classes [\pL] and [\d] of the regex crate;
    - [e_ord_attr], [e_ord_ns]: iteration order of a [HashMap] (std's [RandomState]); theorems assume
      only that it returns a permutation. *)
Record Name := mkName { nm_ns : option str; nm_prefix : option str; nm_local : str }.
#[global] Instance Name_eq_dec : EqDecision Name. Proof. solve_decision. Defined.

Notation id := nat (only parsing).

Record env := mkEnv {
  e_checked : bool;
  e_letter : N -> bool;
  e_digit : N -> bool;
  e_ord_attr : list (Name * id) -> list (Name * id);
  e_ord_ns : list (option str * str) -> list (option str * str) }.

(** ** src/shared/syntax.rs *)
Definition C_AMP : N := 38%N.   (* '&', lines 36 and 110 *)
Definition C_APOS : N := 39%N.  (* apostrophe, line 111 *)
Definition C_GT : N := 62%N.    (* '>', line 112 *)
Definition C_LT : N := 60%N.    (* '<', line 113 *)
Definition C_QUOT : N := 34%N.  (* double quote, line 114 *)
Definition C_SEMI : N := 59%N.
Definition C_HASH : N := 35%N.
Definition C_X : N := 120%N.
Definition C_SPACE : N := 32%N.
Definition C_COLON : N := 58%N. (* XML_NS_SEPARATOR, line 44 *)

Definition XML_NS_URI := lit "http://www.w3.org/XML/1998/namespace".        (* 68 *)
Definition XML_NS_ATTRIBUTE := lit "xml".                                   (* 69 *)
Definition XML_NS_ATTR_ID := lit "id".                                      (* 72 *)
Definition XML_NS_ATTR_SPACE := lit "space".                                (* 74 *)
Definition XML_NS_ATTR_SPACE_DEFAULT := lit "default".                      (* 76 *)
Definition XML_NS_ATTR_SPACE_PRESERVE := lit "preserve".                    (* 77 *)
Definition XMLNS_NS_URI := lit "http://www.w3.org/2000/xmlns/".             (* 83 *)
Definition XMLNS_NS_ATTRIBUTE := lit "xmlns".                               (* 84 *)
Definition XML_PI_RESERVED := lit "xml".                                    (* 12 *)
Definition XML_NAME_CDATA := lit "#cdata-section".                          (* 90 *)
Definition XML_NAME_COMMENT := lit "#comment".                              (* 91 *)
Definition XML_NAME_DOCUMENT := lit "#document".                            (* 92 *)
Definition XML_NAME_DOCUMENT_FRAGMENT := lit "#document-fragment".          (* 93 *)
Definition XML_NAME_TEXT := lit "#text".                                    (* 94 *)

(** ** Escaping *)

(** text.rs 204-209: [to_entity]; [c as u16] truncates. *)
Definition to_entity (c : N) : str :=
  C_AMP :: C_HASH :: dec_of_N (c mod 65536) ++ [C_SEMI].

(** text.rs 212-217: [to_entity_hex]. *)
Definition to_entity_hex (c : N) : str :=
  C_AMP :: C_HASH :: C_X :: hex_of_N (c mod 65536) ++ [C_SEMI].

(** text.rs 187-202: [escape], one character. *)
Definition escape_char (c : N) : str :=
  if (c =? C_AMP)%N then to_entity C_AMP
  else if (c =? C_APOS)%N then to_entity C_APOS
  else if (c =? C_GT)%N then to_entity C_GT
  else if (c =? C_LT)%N then to_entity C_LT
  else if (c =? C_QUOT)%N then to_entity C_QUOT
  else [c].

(** text.rs 187-202: [escape]. *)
Fixpoint escape (s : str) : str :=
  match s with
  | [] => []
  | c :: t => escape_char c ++ escape t
  end.

(** ** End-of-line normalisation: text.rs 143-153.
    The regex is [\r[\n\u{85}]?|\u{85}|\u{2028}], greedy, every match replaced by [\n]. *)
Fixpoint normalize_eol (s : str) : str :=
  match s with
  | [] => []
  | c :: t =>
      if (c =? 13)%N then
        match t with
        | d :: t' => if (d =? 10)%N || (d =? 133)%N then 10%N :: normalize_eol t'
                     else 10%N :: normalize_eol t
        | [] => [10%N]
        end
      else if (c =? 133)%N || (c =? 8232)%N then 10%N :: normalize_eol t
      else c :: normalize_eol t
  end.

(** ** Attribute value normalisation: text.rs 64-120 *)

(** Longest prefix satisfying a class (a greedy regex star). *)
Fixpoint span (p : N -> bool) (s : str) : str * str :=
  match s with
  | [] => ([], [])
  | c :: t => if p c then let '(a, b) := span p t in (c :: a, b) else ([], s)
  end.

(** What the alternation at text.rs 76 can match at a position. *)
Inductive token :=
| TEntity (m : str)   (** whole match, e.g. [&amp;] *)
| TChar (m : str)     (** whole match, e.g. [&#38;] *)
| THex (m : str)      (** whole match, e.g. [&#x26;] *)
| TWs.                (** one of tab, LF, CR *)

Definition is_hex_digit (c : N) : bool :=
  is_ascii_digit c || in_range 97 102 c || in_range 65 70 c.
(** [\pL\.\d_\-] *)
Definition is_entity_char (E : env) (c : N) : bool :=
  e_letter E c || (c =? 46)%N || e_digit E c || (c =? 95)%N || (c =? 45)%N.
(** [\pL_] *)
Definition is_entity_start (E : env) (c : N) : bool := e_letter E c || (c =? 95)%N.

(** [&%][\pL_][\pL\.\d_\-]*; — the class excludes [;], so the greedy star never backtracks
    (lemma [entity_char_not_semi] needs: [;] is neither letter nor digit, part of [wf_env]). *)
Definition match_entity (E : env) (s : str) : option (str * nat) :=
  match s with
  | c :: d :: t =>
      if ((c =? C_AMP)%N || (c =? 37)%N) && is_entity_start E d then
        match span (is_entity_char E) t with
        | (w, e :: _) => if (e =? C_SEMI)%N then Some (c :: d :: w ++ [e], (3 + length w)%nat) else None
        | _ => None
        end
      else None
  | _ => None
  end.

(** &#\d+; *)
Definition match_char (E : env) (s : str) : option (str * nat) :=
  match s with
  | c :: d :: t =>
      if (c =? C_AMP)%N && (d =? C_HASH)%N then
        match span (e_digit E) t with
        | (x :: w, e :: _) =>
            if (e =? C_SEMI)%N then Some (c :: d :: (x :: w) ++ [e], (4 + length w)%nat) else None
        | _ => None
        end
      else None
  | _ => None
  end.

(** &#x[0-9a-fA-F]+; *)
Definition match_hex (s : str) : option (str * nat) :=
  match s with
  | c :: d :: x :: t =>
      if (c =? C_AMP)%N && (d =? C_HASH)%N && (x =? C_X)%N then
        match span is_hex_digit t with
        | (y :: w, e :: _) =>
            if (e =? C_SEMI)%N then Some (c :: d :: x :: (y :: w) ++ [e], (5 + length w)%nat) else None
        | _ => None
        end
      else None
  | _ => None
  end.

(** The whole alternation, in order, at the start of [s]; the number is the length of the match in
    characters. *)
Definition find_token (E : env) (s : str) : option (token * nat) :=
  match match_entity E s with
  | Some (m, n) => Some (TEntity m, n)
  | None =>
      match match_char E s with
      | Some (m, n) => Some (TChar m, n)
      | None =>
          match match_hex s with
          | Some (m, n) => Some (THex m, n)
          | None =>
              match s with
              | c :: _ => if (c =? 9)%N || (c =? 10)%N || (c =? 13)%N then Some (TWs, 1%nat) else None
              | [] => None
              end
          end
      end
  end.

(** [str::parse::<u32>] / [u32::from_str_radix] on a string of ASCII digits: [None] on overflow or on
    a character that is not a digit of the radix. *)
Definition digit_val (radix c : N) : option N :=
  let v := if is_ascii_digit c then Some (c - 48)%N
           else if in_range 97 122 c then Some (c - 87)%N
           else if in_range 65 90 c then Some (c - 55)%N else None in
  match v with Some v => if (v <? radix)%N then Some v else None | None => None end.
Fixpoint parse_u32_from (radix acc : N) (s : str) : option N :=
  match s with
  | [] => Some acc
  | c :: t =>
      match digit_val radix c with
      | None => None
      | Some d => let v := (acc * radix + d)%N in
                  if (v <? 4294967296)%N then parse_u32_from radix v t else None
      end
  end.
Definition parse_u32 (radix : N) (s : str) : option N :=
  match s with [] => None | _ => parse_u32_from radix 0 s end.

(** [char::try_from(u32)]. *)
Definition char_try_from (n : N) : option N :=
  if (n <=? 1114111)%N && negb (in_range 55296 57343 n) then Some n else None.

(** text.rs 219-232: [char_from_entity].  The two assertions always hold for regex matches.
    [entity[2..3]] panics when the third character is not one byte long. *)
Definition char_from_entity (m : str) : res str :=
  match m with
  | _ :: _ :: c :: t =>
      if negb (utf8_len c =? 1)%N then Panic PSlice else
      let digits := if (c =? C_X)%N then removelast t else removelast (c :: t) in
      let radix := if (c =? C_X)%N then 16%N else 10%N in
      match parse_u32 radix digits with
      | None => Panic PUnwrap
      | Some n => match char_try_from n with None => Panic PUnwrap | Some ch => Ok [ch] end
      end
  | _ => Panic PSlice
  end.

(** The [captures_iter] loop, text.rs 79-113: copy what lies between matches, replace the matches.
    [skip] counts the characters of the current match still to be passed over.  (Line 110 compares
    with [value.len()] rather than [step_1.len()]; as the suffix after the last match is copied
    whenever it is not empty the test makes no difference.) *)
Fixpoint scan (E : env) (repl : token -> res str) (s : str) (skip : nat) : res str :=
  match s with
  | [] => Ok []
  | c :: t =>
      match skip with
      | S k => scan E repl t k
      | O =>
          match find_token E s with
          | Some (tok, n) =>
              let? r := repl tok in
              let? rest := scan E repl t (n - 1)%nat in
              Ok (r ++ rest)
          | None => let? rest := scan E repl t 0%nat in Ok (c :: rest)
          end
      end
  end.

(** text.rs 64-120: [normalize_attribute_value].  [resolver] is the [EntityResolver] argument (its
    [resolve] may itself panic); the recursion through entity replacement texts need not terminate,
    so it is fuelled, running out is [Diverge]. *)
Fixpoint normalize_attribute_value (fuel : nat) (E : env) (resolver : str -> res (option str))
    (is_cdata : bool) (value : str) : res str :=
  match fuel with
  | O => Diverge
  | S k =>
      let step_1 := normalize_eol value in
      let repl (tok : token) : res str :=
        match tok with
        | TEntity m =>
            let? r := resolver m in
            match r with
            | None => Panic PExplicit
            | Some replacement => normalize_attribute_value k E resolver is_cdata replacement
            end
        | TChar m => char_from_entity m
        | THex m => char_from_entity m
        | TWs => Ok [C_SPACE]
        end in
      let? step_3 := scan E repl step_1 0%nat in
      if is_cdata then Ok step_3 else Ok (trim_matches C_SPACE step_3)
  end.

(** ** Character classes: text.rs 265-427 *)

(** text.rs 265-272 (the last upper bound is 10FFF in the code). *)
Definition is_xml_10_char (c : N) : bool :=
  (c =? 9)%N || (c =? 10)%N || (c =? 13)%N || in_range 32 55295 c || in_range 57344 65533 c
  || in_range 65536 69631 c.
(** text.rs 275-281. *)
Definition is_xml_10_restricted_char (c : N) : bool :=
  (c =? C_AMP)%N || (c =? C_APOS)%N || (c =? C_GT)%N || (c =? C_LT)%N || (c =? C_QUOT)%N.
(** text.rs 292-300. *)
Definition is_xml_11_char (c : N) : bool :=
  in_range 1 55295 c || in_range 57344 65533 c || in_range 65536 69631 c.
(** text.rs 310-320. *)
Definition is_xml_11_restricted_char (c : N) : bool :=
  in_range 1 8 c || in_range 11 12 c || in_range 14 31 c || in_range 127 132 c || in_range 134 159 c.
(** text.rs 337-339. *)
Definition is_xml_space (c : N) : bool := (c =? 9)%N || (c =? 10)%N || (c =? 13)%N || (c =? 32)%N.
(** text.rs 350-367. *)
Definition is_xml_name_start_char (c : N) : bool :=
  (c =? C_COLON)%N || is_ascii_uppercase c || (c =? 95)%N || is_ascii_lowercase c
  || in_range 192 214 c || in_range 216 246 c || in_range 248 767 c || in_range 880 893 c
  || in_range 895 8191 c || in_range 8204 8205 c || in_range 8304 8591 c || in_range 11264 12271 c
  || in_range 12289 55295 c || in_range 63744 64975 c || in_range 65008 65533 c
  || in_range 65536 983039 c.
(** text.rs 375-383. *)
Definition is_xml_name_char (c : N) : bool :=
  is_xml_name_start_char c || (c =? 45)%N || (c =? 46)%N || is_ascii_digit c || (c =? 183)%N
  || in_range 768 879 c || in_range 8255 8256 c.
(** text.rs 390-393: [s[1..]] panics when the first character is longer than one byte. *)
Definition is_xml_name (s : str) : res bool :=
  match s with
  | [] => Ok false
  | c :: _ =>
      if is_xml_name_start_char c then
        let? p := split_at_res s 1 in Ok (forallb is_xml_name_char p.2)
      else Ok false
  end.
(** [Iterator::all] with a predicate that may panic. *)
Fixpoint all_res {A} (p : A -> res bool) (l : list A) : res bool :=
  match l with
  | [] => Ok true
  | x :: t => let? b := p x in if b then all_res p t else Ok false
  end.
(** text.rs 401-404. *)
Definition is_xml_names (s : str) : res bool :=
  match s with [] => Ok false | _ => all_res is_xml_name (split_on C_SPACE s) end.
(** text.rs 412-415. *)
Definition is_xml_nmtoken (s : str) : bool :=
  match s with [] => false | _ => forallb is_xml_name_char s end.
(** text.rs 423-426. *)
Definition is_xml_nmtokens (s : str) : bool :=
  match s with [] => false | _ => forallb is_xml_nmtoken (split_on C_SPACE s) end.

(** ** SpaceHandling: text.rs 10-15, 432-462 *)
Inductive space_handling := SHDefault | SHPreserve.
Definition space_handling_value (x : space_handling) : str :=
  match x with SHDefault => XML_NS_ATTR_SPACE_DEFAULT | SHPreserve => XML_NS_ATTR_SPACE_PRESERVE end.
Definition space_handling_to_string (x : space_handling) : str :=
  XML_NS_ATTRIBUTE ++ [C_COLON] ++ XML_NS_ATTR_SPACE ++ lit "=""" ++ space_handling_value x ++ [C_QUOT].
Definition space_handling_from_str (s : str) : option space_handling :=
  if str_eqb s XML_NS_ATTR_SPACE_DEFAULT then Some SHDefault
  else if str_eqb s XML_NS_ATTR_SPACE_PRESERVE then Some SHPreserve
  else None.
