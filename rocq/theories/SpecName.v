(** * SpecName: the grammars of names, declarations and options, independently of the model's code *)
From Verif Require Export SpecText.

(** A string seen as name parts. *)
Definition colon_free (s : str) : Prop := ~ In 58%N s.
Definition one_part (s : str) : Prop := colon_free s.
Definition two_parts (s p l : str) : Prop := s = p ++ 58%N :: l /\ colon_free p /\ colon_free l.
Definition many_colons (s : str) : Prop := exists a b c, s = a ++ 58%N :: b ++ 58%N :: c.

(** A part the parser accepts: a one-byte NameStartChar, then NameChars. *)
Definition good_part (x : str) : Prop :=
  exists c t, x = c :: t /\ name_start_char c /\ (c < 128)%N /\ Forall name_char t.
(** A part with a bad character. *)
Definition bad_part (x : str) : Prop :=
  exists c t, x = c :: t /\
    (~ name_start_char c \/ (c < 128)%N /\ ~ Forall name_char t).
(** A part whose first character is a NameStartChar of more than one byte. *)
Definition wide_part (x : str) : Prop := exists c t, x = c :: t /\ name_start_char c /\ (128 <= c)%N.

(** When a string is rejected, and how; the local part is looked at before the prefix. *)
Definition syntax_fault (s : str) : Prop :=
  s = [] \/ many_colons s
  \/ exists p l, two_parts s p l /\ (l = [] \/ good_part l /\ p = []).
Definition character_fault (s : str) : Prop :=
  one_part s /\ bad_part s
  \/ exists p l, two_parts s p l /\ (bad_part l \/ good_part l /\ bad_part p).
Definition wide_fault (s : str) : Prop :=
  one_part s /\ wide_part s
  \/ exists p l, two_parts s p l /\ (wide_part l \/ good_part l /\ wide_part p).

(** The two reserved namespaces. *)
Definition xml_uri : str := lit "http://www.w3.org/XML/1998/namespace".
Definition xmlns_uri : str := lit "http://www.w3.org/2000/xmlns/".
Definition uses (n : Name) (w : str) : Prop := nm_prefix n = Some w \/ nm_local n = w.
Definition reserved_ok (u : str) (n : Name) : Prop :=
  (uses n (lit "xml") -> u = xml_uri) /\ (uses n (lit "xmlns") -> u = xmlns_uri).

(** Encoding names: [A-Za-z] ([A-Za-z0-9._] | '-')* *)
Definition encoding_name (e : str) : Prop :=
  exists c t, e = c :: t /\ ascii_letter c /\
    Forall (fun x => ascii_letter x \/ ascii_digit x \/ x = 46%N \/ x = 95%N \/ x = 45%N) t.

(** The eight printed forms of the options. *)
Definition options_text (ids ents nss : bool) : str :=
  match ids, ents, nss with
  | false, false, false => lit "ProcessingOptions {}"
  | true, false, false => lit "ProcessingOptions {AssumeIDs}"
  | false, true, false => lit "ProcessingOptions {ParseEntities}"
  | false, false, true => lit "ProcessingOptions {AddNamespaces}"
  | true, true, false => lit "ProcessingOptions {AssumeIDs, ParseEntities}"
  | true, false, true => lit "ProcessingOptions {AssumeIDs, AddNamespaces}"
  | false, true, true => lit "ProcessingOptions {ParseEntities, AddNamespaces}"
  | true, true, true => lit "ProcessingOptions {AssumeIDs, ParseEntities, AddNamespaces}"
  end.

(** The name a string (with a namespace) stands for. *)
Definition plain_name (s : str) (n : Name) : Prop :=
  (one_part s /\ good_part s /\ n = mkName None None s)
  \/ (exists p l, two_parts s p l /\ good_part p /\ good_part l /\ n = mkName None (Some p) l).
Definition qualified_name (u s : str) (n : Name) : Prop :=
  exists m, plain_name s m /\ u <> [] /\ reserved_ok u m /\ n = mkName (Some u) (nm_prefix m) (nm_local m).
(** Every capitalisation of [xml]. *)
Definition xml_target (s : str) : Prop :=
  exists a b c, s = [a; b; c] /\ (a = 120%N \/ a = 88%N) /\ (b = 109%N \/ b = 77%N) /\ (c = 108%N \/ c = 76%N).
