(** * SpecEntity: attribute value normalisation with entity references, independently of the model's code

    XML 1.1, 3.3.3.  [R] gives the replacement text of a reference written [&name;] or [%name;]. *)
From Verif Require Export SpecText.

Section entities.
  Context (E : env) (R : str -> option str) (cdata : bool).
  (** A named reference [m] at the start of [s], followed by [r]. *)
  Definition named_at (s m r : str) : Prop :=
    exists p x w, s = m ++ r /\ m = p :: x :: w ++ [59%N] /\ (p = 38%N \/ p = 37%N) /\ (e_letter E x = true \/ x = 95%N) /\
      Forall (fun c => e_letter E c = true \/ e_digit E c = true \/ c = 46%N \/ c = 95%N \/ c = 45%N) w.
  (** Anything else at the start of [s] that has a replacement [z]. *)
  Inductive piece : str -> str -> str -> Prop :=
  | pc_white c s : white c -> piece (c :: s) [32%N] s
  | pc_dec s ds r : dec_ref E s ds r -> Forall ascii_digit ds -> scalar (number 10 ds) -> piece s [number 10 ds] r
  | pc_hex s ds r : hex_ref s ds r -> scalar (number 16 ds) -> piece s [number 16 ds] r
  | pc_plain c s : ~ white c -> no_ref E (c :: s) -> piece (c :: s) [c] s.
  (** A numeric reference to no character. *)
  Definition bad_number (s : str) : Prop :=
    (exists ds r, dec_ref E s ds r /\ ~ (Forall ascii_digit ds /\ scalar (number 10 ds)))
    \/ (exists ds r, hex_ref s ds r /\ ~ scalar (number 16 ds)).
  (** Only values that are not CDATA lose their outer spaces. *)
  Definition finished (y z : str) : Prop := if cdata then z = y else trimmed y z.
  Inductive walks : str -> str -> Prop :=
  | wk_nil : walks [] []
  | wk_piece s z r t : piece s z r -> walks r t -> walks s (z ++ t)
  | wk_named s m r x l y z t : named_at s m r -> R m = Some x -> line_ends_normalised x l -> walks l y -> finished y z ->
      walks r t -> walks s (z ++ t).
  Definition normalised (v w : str) : Prop := exists l y, line_ends_normalised v l /\ walks l y /\ finished y w.
  (** The same walk meeting something without replacement, on this level or in the text of an entity. *)
  Inductive stuck : str -> Prop :=
  | st_number s : bad_number s -> stuck s
  | st_unknown s m r : named_at s m r -> R m = None -> stuck s
  | st_inside s m r x l : named_at s m r -> R m = Some x -> line_ends_normalised x l -> stuck l -> stuck s
  | st_piece s z r : piece s z r -> stuck r -> stuck s
  | st_named s m r x l y : named_at s m r -> R m = Some x -> line_ends_normalised x l -> walks l y -> stuck r -> stuck s.
  (** The walk over the first text starts a walk over the second. *)
  Inductive enters : str -> str -> Prop :=
  | en_here s m r x l : named_at s m r -> R m = Some x -> line_ends_normalised x l -> enters s l
  | en_piece s z r l : piece s z r -> enters r l -> enters s l
  | en_named s m r x l y l' : named_at s m r -> R m = Some x -> line_ends_normalised x l -> walks l y -> enters r l' -> enters s l'.
End entities.
