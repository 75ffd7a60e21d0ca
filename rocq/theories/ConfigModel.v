(** * ConfigModel: src/level2/ext/options.rs, src/level2/ext/decl.rs, and [unquote] of the parser *)
From Verif Require Export NameModel.

(** ** ProcessingOptions: options.rs 48-180 (a [u8]) *)
Definition options := N.
Definition FLAG_ASSUME_IDS : N := 1%N.       (* 59 *)
Definition FLAG_PARSE_ENTITIES : N := 2%N.   (* 60 *)
Definition FLAG_ADD_NAMESPACES : N := 4%N.   (* 61 *)
Definition options_new : options := 0%N.     (* 126-128 *)
Definition has_none (o : options) : bool := (o =? 0)%N. (* 132-134 *)
Definition has_assume_ids (o : options) : bool := negb (N.land o FLAG_ASSUME_IDS =? 0)%N. (* 139-141 *)
Definition has_parse_entities (o : options) : bool := negb (N.land o FLAG_PARSE_ENTITIES =? 0)%N. (* 146-148 *)
Definition has_add_namespaces (o : options) : bool := negb (N.land o FLAG_ADD_NAMESPACES =? 0)%N. (* 153-155 *)
Definition set_assume_ids (o : options) : options := N.lor o FLAG_ASSUME_IDS. (* 165-167 *)
Definition set_parse_entities (o : options) : options := N.lor o FLAG_PARSE_ENTITIES. (* 171-173 *)
Definition set_add_namespaces (o : options) : options := N.lor o FLAG_ADD_NAMESPACES. (* 177-179 *)
Definition options_and (a b : options) : options := N.land a b. (* 102-108 *)
Definition options_or (a b : options) : options := N.lor a b.   (* 112-118 *)

(** [join(", ")]. *)
Fixpoint join (sep : str) (l : list str) : str :=
  match l with
  | [] => []
  | [x] => x
  | x :: t => x ++ sep ++ join sep t
  end.

(** options.rs 68-86: [Display]. *)
Definition options_to_string (o : options) : str :=
  lit "ProcessingOptions {"
  ++ join (lit ", ")
       ((if has_assume_ids o then [lit "AssumeIDs"] else [])
        ++ (if has_parse_entities o then [lit "ParseEntities"] else [])
        ++ (if has_add_namespaces o then [lit "AddNamespaces"] else []))
  ++ lit "}".

(** ** XmlVersion and XmlDecl: decl.rs *)
Inductive xml_version := V10 | V11. (* 21-26 *)
Record xml_decl := mkDecl
  { xd_version : xml_version; xd_encoding : option str; xd_standalone : option bool }. (* 47-51 *)

Definition version_to_string (v : xml_version) : str :=
  match v with V10 => lit "1.0" | V11 => lit "1.1" end. (* 81-92 *)
Definition version_from_str (s : str) : option xml_version :=
  if str_eqb s (lit "1.0") then Some V10
  else if str_eqb s (lit "1.1") then Some V11 else None. (* 96-108 *)

(** decl.rs 59-75.  [s[1..]] cannot panic here because the first character is an ASCII letter; the
    slice is still modelled. *)
Definition is_encoding_start_char (c : N) : bool := is_ascii_uppercase c || is_ascii_lowercase c.
Definition is_encoding_rest_char (c : N) : bool :=
  is_ascii_uppercase c || is_ascii_lowercase c || is_ascii_digit c || (c =? 46)%N || (c =? 95)%N.
Definition is_encoding (s : str) : res bool :=
  match s with
  | [] => Ok false
  | c :: _ =>
      if is_encoding_start_char c then
        let? p := split_at_res s 1 in
        Ok (forallb (forallb is_encoding_rest_char) (split_on 45 p.2))
      else Ok false
  end.

(** decl.rs 157-168: [XmlDecl::new]. *)
Definition xml_decl_new (v : xml_version) (enc : option str) (sa : option bool) : res xml_decl :=
  match enc with
  | Some e => let? b := is_encoding e in
              if b then Ok (mkDecl v enc sa) else Panic PExplicit
  | None => Ok (mkDecl v enc sa)
  end.

(** decl.rs 113-121. *)
Definition xml_decl_default : xml_decl := mkDecl V10 None None.

(** decl.rs 125-149: [Display for XmlDecl]. *)
Definition xml_decl_to_string (d : xml_decl) : str :=
  lit "<?xml version=""" ++ version_to_string (xd_version d) ++ [C_QUOT]
  ++ match xd_encoding d with
     | Some e => lit " encoding=""" ++ e ++ [C_QUOT]
     | None => []
     end
  ++ match xd_standalone d with
     | Some b => lit " standalone=""" ++ (if b then lit "yes" else lit "no") ++ [C_QUOT]
     | None => []
     end
  ++ lit "?>".

(** ** parser/mod.rs 406-416: [unquote].  Both tests look at the first and last character;
    [s[1..len-1]] panics when the string is a single quote character (1 > 0). *)
Definition starts_with (c : N) (s : str) : bool :=
  match s with d :: _ => (d =? c)%N | [] => false end.
Definition ends_with (c : N) (s : str) : bool :=
  match last s with Some d => (d =? c)%N | None => false end.
Definition slice_inner (s : str) : res str :=
  match s with
  | _ :: _ :: _ => Ok (removelast (tail s))
  | _ => Panic PSlice
  end.
Definition unquote (s : str) : res str :=
  if starts_with C_QUOT s && ends_with C_QUOT s then slice_inner s
  else if starts_with C_APOS s && ends_with C_APOS s then slice_inner s
  else if starts_with C_QUOT s || starts_with C_APOS s then Err InvalidCharacter
  else Ok s.
