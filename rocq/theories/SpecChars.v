(** * SpecChars: character classes, tokens and numbers of XML, independently of the model's code *)
From Verif Require Export SpecText.

(** XML 1.0, production 2; XML 1.1, productions 2 and 2a; production 3. *)
Definition char_10 (c : N) : Prop :=
  c = 0x9%N \/ c = 0xA%N \/ c = 0xD%N \/ rng 0x20 0xD7FF c \/ rng 0xE000 0xFFFD c \/ rng 0x10000 0x10FFFF c.
Definition char_11 (c : N) : Prop := rng 0x1 0xD7FF c \/ rng 0xE000 0xFFFD c \/ rng 0x10000 0x10FFFF c.
Definition restricted_11 (c : N) : Prop :=
  rng 0x1 0x8 c \/ rng 0xB 0xC c \/ rng 0xE 0x1F c \/ rng 0x7F 0x84 c \/ rng 0x86 0x9F c.
Definition xml_space (c : N) : Prop := c = 0x20%N \/ c = 0x9%N \/ c = 0xD%N \/ c = 0xA%N.

(** XML 1.1, productions 5 to 8: names and tokens, and lists of them separated by single spaces. *)
Definition a_name (s : str) : Prop := exists c t, s = c :: t /\ name_start_char c /\ Forall name_char t.
Definition a_token (s : str) : Prop := s <> [] /\ Forall name_char s.
Inductive listed (P : str -> Prop) : str -> Prop :=
| listed_one w : P w -> listed P w
| listed_more w s : P w -> listed P s -> listed P (w ++ 32%N :: s).

(** The words of a string between single spaces. *)
Inductive words : str -> list str -> Prop :=
| words_one w : ~ In 32%N w -> words w [w]
| words_more w s ws : ~ In 32%N w -> words s ws -> words (w ++ 32%N :: s) (w :: ws).

(** Decimal and upper-case hexadecimal numerals without leading zero. *)
Definition hex_upper (c : N) : Prop := ascii_digit c \/ (65 <= c <= 70)%N.
Definition numeral (radix : N) (n : N) (ds : str) : Prop :=
  number radix ds = n /\ ds <> [] /\ (forall t, ds = 48%N :: t -> t = []) /\
  Forall (if (radix =? 10)%N then ascii_digit else hex_upper) ds.
