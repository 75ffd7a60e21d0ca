(** * SpecText: what text, attribute values and names should be, independently of the model's code

    Only plain definitions over strings (lists of Unicode scalar values); nothing here calls a model
    function except the string vocabulary of [Base] ([str], [blen], [lit]) and the types of [Name]. *)
From Verif Require Export Dom.

(** ** Escaping *)
Definition special (c : N) : Prop := c = 38%N \/ c = 39%N \/ c = 60%N \/ c = 62%N \/ c = 34%N.
(** The five references: [&#38;] [&#39;] [&#60;] [&#62;] [&#34;]. *)
Inductive reference_of : N -> str -> Prop :=
| ref_amp : reference_of 38 (lit "&#38;")
| ref_apos : reference_of 39 (lit "&#39;")
| ref_lt : reference_of 60 (lit "&#60;")
| ref_gt : reference_of 62 (lit "&#62;")
| ref_quot : reference_of 34 (lit "&#34;").

(** [escaped v d]: [d] is [v] with each special character replaced by its reference. *)
Inductive escaped : str -> str -> Prop :=
| esc_nil : escaped [] []
| esc_plain c v d : ~ special c -> escaped v d -> escaped (c :: v) (c :: d)
| esc_special c r v d : reference_of c r -> escaped v d -> escaped (c :: v) (r ++ d).

(** Markup-free: no [<], [>] or quote, and every [&] opens one of the five references. *)
Definition markup_free (d : str) : Prop :=
  (forall c, In c d -> c <> 60%N /\ c <> 62%N /\ c <> 39%N /\ c <> 34%N) /\
  (forall l r, d = l ++ 38%N :: r -> exists c ref rest, reference_of c ref /\ 38%N :: r = ref ++ rest).

(** A decoder for the five references, by longest known prefix. *)
Definition drop_prefix (p s : str) : option str :=
  if bool_decide (firstn (length p) s = p) then Some (skipn (length p) s) else None.
Fixpoint decode5 (fuel : nat) (s : str) : str :=
  match fuel, s with
  | S k, c :: t =>
      match drop_prefix (lit "&#38;") s with Some r => 38%N :: decode5 k r | None =>
      match drop_prefix (lit "&#39;") s with Some r => 39%N :: decode5 k r | None =>
      match drop_prefix (lit "&#60;") s with Some r => 60%N :: decode5 k r | None =>
      match drop_prefix (lit "&#62;") s with Some r => 62%N :: decode5 k r | None =>
      match drop_prefix (lit "&#34;") s with Some r => 34%N :: decode5 k r | None =>
      c :: decode5 k t end end end end end
  | _, _ => []
  end.
Definition decode (s : str) : str := decode5 (length s) s.

(** ** Line ends: CR LF, CR NEL, CR, NEL, LS *)
Definition starts_lf_nel (s : str) : Prop := exists t, s = 10%N :: t \/ s = 0x85%N :: t.
Inductive line_ends_normalised : str -> str -> Prop :=
| le_nil : line_ends_normalised [] []
| le_crlf s t : line_ends_normalised s t -> line_ends_normalised (13%N :: 10%N :: s) (10%N :: t)
| le_crnel s t : line_ends_normalised s t -> line_ends_normalised (13%N :: 0x85%N :: s) (10%N :: t)
| le_cr s t : ~ starts_lf_nel s -> line_ends_normalised s t -> line_ends_normalised (13%N :: s) (10%N :: t)
| le_nel s t : line_ends_normalised s t -> line_ends_normalised (0x85%N :: s) (10%N :: t)
| le_ls s t : line_ends_normalised s t -> line_ends_normalised (0x2028%N :: s) (10%N :: t)
| le_plain c s t : c <> 13%N -> c <> 0x85%N -> c <> 0x2028%N ->
    line_ends_normalised s t -> line_ends_normalised (c :: s) (c :: t).
Definition no_line_end_but_lf (s : str) : Prop := Forall (fun c => c <> 13%N /\ c <> 0x85%N /\ c <> 0x2028%N) s.

(** ** Attribute values *)
Definition spaces (s : str) : Prop := Forall (eq 32%N) s.
(** [t] is [s] without its leading and trailing spaces. *)
Definition trimmed (s t : str) : Prop :=
  exists a b, s = a ++ t ++ b /\ spaces a /\ spaces b /\
    (forall x, t <> 32%N :: x) /\ (forall x, t <> x ++ [32%N]).

Definition white (c : N) : Prop := c = 9%N \/ c = 10%N \/ c = 13%N.
Definition white_to_space (c : N) : N := if bool_decide (white c) then 32%N else c.

Definition ascii_letter (c : N) : Prop := (65 <= c <= 90)%N \/ (97 <= c <= 122)%N.
Definition ascii_digit (c : N) : Prop := (48 <= c <= 57)%N.
Definition hex_char (c : N) : Prop := ascii_digit c \/ (65 <= c <= 70)%N \/ (97 <= c <= 102)%N.
(** A Unicode scalar value. *)
Definition scalar (n : N) : Prop := (n <= 0x10FFFF)%N /\ ~ (0xD800 <= n <= 0xDFFF)%N.
Definition digit_value (c : N) : N :=
  if (c <=? 57)%N then (c - 48)%N else if (c <=? 90)%N then (c - 55)%N else (c - 87)%N.
Definition number (radix : N) (digits : str) : N :=
  fold_left (fun a c => a * radix + digit_value c)%N digits 0%N.

Section refs.
  Context (E : env).
  (** [&name;] or [%name;] at the start of [s]: letters and [_] first, then also digits, [.] and [-]. *)
  Definition named_ref (s : str) : Prop :=
    exists p x w r, s = p :: x :: w ++ 59%N :: r /\ (p = 38%N \/ p = 37%N) /\
      (e_letter E x = true \/ x = 95%N) /\
      Forall (fun c => e_letter E c = true \/ e_digit E c = true \/ c = 46%N \/ c = 95%N \/ c = 45%N) w.
  (** [&#ddd;] at the start, with the digits and what follows. *)
  Definition dec_ref (s ds r : str) : Prop :=
    s = 38%N :: 35%N :: ds ++ 59%N :: r /\ ds <> [] /\ Forall (fun c => e_digit E c = true) ds.
  (** [&#xhhh;] at the start. *)
  Definition hex_ref (s ds r : str) : Prop :=
    s = 38%N :: 35%N :: 120%N :: ds ++ 59%N :: r /\ ds <> [] /\ Forall hex_char ds.
  Definition no_ref (s : str) : Prop :=
    ~ named_ref s /\ (forall ds r, ~ dec_ref s ds r) /\ (forall ds r, ~ hex_ref s ds r).

  (** Replacement of references and white space, left to right, results not rescanned. *)
  Inductive expands : str -> str -> Prop :=
  | ex_nil : expands [] []
  | ex_white c s t : white c -> expands s t -> expands (c :: s) (32%N :: t)
  | ex_dec s ds r t : dec_ref s ds r -> Forall ascii_digit ds -> scalar (number 10 ds) ->
      expands r t -> expands s (number 10 ds :: t)
  | ex_hex s ds r t : hex_ref s ds r -> scalar (number 16 ds) ->
      expands r t -> expands s (number 16 ds :: t)
  | ex_plain c s t : ~ white c -> no_ref (c :: s) -> expands s t -> expands (c :: s) (c :: t).

  (** The same walk hitting a reference that cannot be replaced. *)
  Inductive blocked : str -> Prop :=
  | bl_named s : named_ref s -> blocked s
  | bl_dec s ds r : dec_ref s ds r -> ~ (Forall ascii_digit ds /\ scalar (number 10 ds)) -> blocked s
  | bl_hex s ds r : hex_ref s ds r -> ~ scalar (number 16 ds) -> blocked s
  | bl_white c s : white c -> blocked s -> blocked (c :: s)
  | bl_skip_dec s ds r : dec_ref s ds r -> Forall ascii_digit ds -> scalar (number 10 ds) ->
      blocked r -> blocked s
  | bl_skip_hex s ds r : hex_ref s ds r -> scalar (number 16 ds) -> blocked r -> blocked s
  | bl_plain c s : ~ white c -> no_ref (c :: s) -> blocked s -> blocked (c :: s).
  (** A reference that cannot be replaced: a named one, or a number that is not a Unicode scalar value
      written in ASCII digits. *)
  Definition bad_ref (r : str) : Prop :=
    named_ref r
    \/ (exists ds q, dec_ref r ds q /\ ~ (Forall ascii_digit ds /\ scalar (number 10 ds)))
    \/ (exists ds q, hex_ref r ds q /\ ~ scalar (number 16 ds)).
End refs.

(** The text stored in an attribute: the values of its Text and EntityReference children. *)
Definition child_text (h : heap) (c : id) (s : str) : Prop :=
  exists n, h_nodes h !! c = Some n /\
    ((n_type n = NText \/ n_type n = NEntityReference) /\ s = default [] (n_value n)
     \/ n_type n <> NText /\ n_type n <> NEntityReference /\ s = []).
Definition stored_text (h : heap) (a : id) (raw : str) : Prop :=
  exists n parts, h_nodes h !! a = Some n /\ n_children n <> [] /\
    Forall2 (child_text h) (n_children n) parts /\ raw = concat parts.

(** ** Names (XML 1.1 productions 4 and 4a) *)
Definition rng (lo hi c : N) : Prop := (lo <= c <= hi)%N.
Definition name_start_char (c : N) : Prop :=
  c = 58%N \/ rng 65 90 c \/ c = 95%N \/ rng 97 122 c \/ rng 0xC0 0xD6 c \/ rng 0xD8 0xF6 c
  \/ rng 0xF8 0x2FF c \/ rng 0x370 0x37D c \/ rng 0x37F 0x1FFF c \/ rng 0x200C 0x200D c
  \/ rng 0x2070 0x218F c \/ rng 0x2C00 0x2FEF c \/ rng 0x3001 0xD7FF c \/ rng 0xF900 0xFDCF c
  \/ rng 0xFDF0 0xFFFD c \/ rng 0x10000 0xEFFFF c.
Definition name_char (c : N) : Prop :=
  name_start_char c \/ c = 45%N \/ c = 46%N \/ ascii_digit c \/ c = 0xB7%N
  \/ rng 0x300 0x36F c \/ rng 0x203F 0x2040 c.
(** A name part: one start character, then name characters, no colon. *)
Definition ncname (s : str) : Prop :=
  exists c t, s = c :: t /\ name_start_char c /\ Forall name_char t /\ ~ In 58%N s.
Definition no_colon (s : str) : Prop := ~ In 58%N s.
(** The first character, if any, takes one byte. *)
Definition ascii_first (s : str) : Prop := forall c t, s = c :: t -> (c < 128)%N.
