(** * Base: strings, outcomes, and the handful of std functions the crate uses.

    Nothing here is a property; it is the vocabulary of the model. *)
From Coq Require String Ascii.
Export String.StringSyntax.
From stdpp Require Export base numbers gmap list.
Set Default Proof Using "Type".

(** ** Strings

    A Rust [String]/[&str] is modelled as the list of its Unicode scalar values.  Byte offsets (which
    is what every index in the API is) are recovered through [utf8_len]. *)
Notation char := N (only parsing).
Definition str := list N.

(** Number of bytes of a [char] in UTF-8 ([char::len_utf8]). *)
Definition utf8_len (c : N) : N :=
  if (c <? 128)%N then 1%N else if (c <? 2048)%N then 2%N else if (c <? 65536)%N then 3%N else 4%N.

(** [str::len]: the length in bytes. *)
Fixpoint blen (s : str) : N :=
  match s with
  | [] => 0%N
  | c :: t => (utf8_len c + blen t)%N
  end.

(** [split_at s off] cuts [s] at byte [off]; [None] when [off] is past the end or is not a character
    boundary, which is when Rust's string slicing panics. *)
Fixpoint split_at (s : str) (off : N) : option (str * str) :=
  if (off =? 0)%N then Some ([], s) else
  match s with
  | [] => None
  | c :: t =>
      if (off <? utf8_len c)%N then None else
      match split_at t (off - utf8_len c)%N with
      | Some (l, r) => Some (c :: l, r)
      | None => None
      end
  end.

(** Ascii literals. *)
Fixpoint lit (s : String.string) : str :=
  match s with
  | String.EmptyString => []
  | String.String a t => Ascii.N_of_ascii a :: lit t
  end.
Arguments lit s%string_scope.

(** Decidable string equality as a boolean ([==] on strings). *)
Definition str_eqb (a b : str) : bool := bool_decide (a = b).
Definition ostr_eqb (a b : option str) : bool := bool_decide (a = b).

(** [str::split(c)] for a one-character separator. *)
Fixpoint split_on (sep : N) (s : str) : list str :=
  match s with
  | [] => [[]]
  | c :: t =>
      if (c =? sep)%N then [] :: split_on sep t
      else match split_on sep t with
           | [] => [[c]]
           | w :: ws => (c :: w) :: ws
           end
  end.

(** [s.trim_matches(c)]. *)
Fixpoint trim_start (c : N) (s : str) : str :=
  match s with
  | [] => []
  | d :: t => if (d =? c)%N then trim_start c t else s
  end.
Definition trim_end (c : N) (s : str) : str := rev (trim_start c (rev s)).
Definition trim_matches (c : N) (s : str) : str := trim_end c (trim_start c s).

(** [char::is_ascii_uppercase] and friends, and [str::to_ascii_lowercase]. *)
Definition in_range (lo hi c : N) : bool := (lo <=? c)%N && (c <=? hi)%N.
Definition is_ascii_uppercase (c : N) : bool := in_range 65 90 c.
Definition is_ascii_lowercase (c : N) : bool := in_range 97 122 c.
Definition is_ascii_digit (c : N) : bool := in_range 48 57 c.
Definition to_lower (c : N) : N := if is_ascii_uppercase c then (c + 32)%N else c.
Definition to_ascii_lowercase (s : str) : str := map to_lower s.

(** Decimal rendering of an unsigned integer ([format!("{}", n)]). *)
Fixpoint dec_digits (fuel : nat) (n : N) (acc : str) : str :=
  match fuel with
  | O => acc
  | S k =>
      let d := (48 + n mod 10)%N in
      let q := (n / 10)%N in
      if (q =? 0)%N then d :: acc else dec_digits k q (d :: acc)
  end.
Definition dec_of_N (n : N) : str := dec_digits (S (N.to_nat (N.size n))) n [].

(** Upper-case hexadecimal rendering ([format!("{:X}", n)]). *)
Definition hex_digit (d : N) : N := if (d <? 10)%N then (48 + d)%N else (55 + d)%N.
Fixpoint hex_digits (fuel : nat) (n : N) (acc : str) : str :=
  match fuel with
  | O => acc
  | S k =>
      let d := hex_digit (n mod 16) in
      let q := (n / 16)%N in
      if (q =? 0)%N then d :: acc else hex_digits k q (d :: acc)
  end.
Definition hex_of_N (n : N) : str := hex_digits (S (N.to_nat (N.size n))) n [].

(** ** Outcomes

    [src/shared/error.rs] lines 24-61. *)
Inductive error :=
| IndexSize | StringSize | HierarchyRequest | WrongDocument | InvalidCharacter | NoDataAllowed
| NoModificationAllowed | NotFound | NotSupported | InUseAttribute | InvalidState | Syntax
| InvalidModification | Namespace | InvalidAccess.

(** Why a call can unwind instead of returning. *)
Inductive panic :=
| PBorrow      (** a [RefCell] is already borrowed *)
| PUnwrap      (** [unwrap]/[expect] on [None] or [Err] *)
| PSlice       (** string index not on a character boundary, or out of range *)
| POverflow    (** arithmetic overflow with overflow checks on *)
| PIndex       (** [Vec] index out of range *)
| PExplicit    (** a [panic!] in the crate *)
| PNoHandle.   (** not a Rust outcome: the caller passed a node identity that is not alive *)

(** The result of a call: [Ok]/[Err] are data, as in Rust; [Panic] unwinds; [Diverge] is the
    explicit out-of-fuel value of the recursive walks (in Rust: stack overflow). *)
Inductive res (A : Type) :=
| Ok (a : A)
| Err (e : error)
| Panic (p : panic)
| Diverge.
Arguments Ok {A}. Arguments Err {A}. Arguments Panic {A}. Arguments Diverge {A}.

Definition rbind {A B} (m : res A) (k : A -> res B) : res B :=
  match m with
  | Ok a => k a
  | Err e => Err e
  | Panic p => Panic p
  | Diverge => Diverge
  end.
Notation "'let?' x ':=' m 'in' k" := (rbind m (fun x => k))
  (at level 200, x pattern, right associativity).

(** [.unwrap()] on a [Result]: an [Err] becomes a panic. *)
Definition unwrap_res {A} (m : res A) : res A :=
  match m with Err _ => Panic PUnwrap | r => r end.
(** [.unwrap()] on an [Option]. *)
Definition unwrap_opt {A} (o : option A) : res A :=
  match o with Some a => Ok a | None => Panic PUnwrap end.
(** String slicing that panics off a boundary. *)
Definition split_at_res (s : str) (off : N) : res (str * str) :=
  match split_at s off with Some p => Ok p | None => Panic PSlice end.

(** [usize] addition.  [checked] says whether the build has overflow checks (debug profile) or wraps
    (release profile). *)
Definition usize_mod : N := 18446744073709551616%N.
Definition usize_add (checked : bool) (a b : N) : res N :=
  if (a + b <? usize_mod)%N then Ok (a + b)%N
  else if checked then Panic POverflow else Ok ((a + b) mod usize_mod)%N.

#[global] Instance error_eq_dec : EqDecision error. Proof. solve_decision. Defined.
#[global] Instance panic_eq_dec : EqDecision panic. Proof. solve_decision. Defined.
#[global] Instance res_eq_dec {A} `{EqDecision A} : EqDecision (res A).
Proof. solve_decision. Defined.
