(** * CodeModel: numbers and texts of src/shared/error.rs, src/parser/mod.rs 39-55, [NodeType] of src/level2/traits.rs,
    [Binary] of src/level2/ext/options.rs and the accessors of [NamespacePrefix] *)
From Verif Require Export Parser NsModel.

(** [#[repr(u16)]] with a first value of 1: every variant is one more than the one declared before it. *)
Fixpoint discriminant {A} `{EqDecision A} (x : A) (declared : list A) (next : N) : option N :=
  match declared with
  | [] => None
  | y :: t => if bool_decide (x = y) then Some next else discriminant x t (next + 1)
  end.
#[global] Instance error_eq_dec : EqDecision error. Proof. solve_decision. Defined.
Definition declared_errors : list error := (* error.rs 23-62 *)
  [IndexSize; StringSize; HierarchyRequest; WrongDocument; InvalidCharacter; NoDataAllowed; NoModificationAllowed; NotFound;
   NotSupported; InUseAttribute; InvalidState; Syntax; InvalidModification; Namespace; InvalidAccess].
Definition error_code (e : error) : option N := discriminant e declared_errors 1.
Definition declared_types : list node_type := (* traits.rs 1853-1878 *)
  [NElement; NAttribute; NText; NCData; NEntityReference; NEntity; NProcessingInstruction; NComment; NDocument; NDocumentType;
   NDocumentFragment; NNotation].
Definition type_code (t : node_type) : option N := discriminant t declared_types 1.

(** error.rs 115-136: [Display] *)
Definition error_to_string (e : error) : str :=
  match e with
  | IndexSize => lit "Either `index` or `size` is negative, or greater than the allowed value"
  | StringSize => lit "The specified range of text does not fit into a DOMString"
  | HierarchyRequest => lit "An attempt insert a node somewhere it doesn't belong"
  | WrongDocument => lit "An attempt to use a node in a different document than the one that created it"
  | InvalidCharacter => lit "An invalid or illegal character was specified, such as in a name"
  | NoDataAllowed => lit "An attempt to add data for a node which does not support data"
  | NoModificationAllowed => lit "An attempt is made to modify an object where modifications are not allowed"
  | NotFound => lit "An attempt is made to reference a node in a context where it does not exist"
  | NotSupported => lit "The implementation does not support the requested type of object or operation"
  | InUseAttribute => lit "An attempt was made to add an attribute that is already in use elsewhere"
  | InvalidState => lit "An attempt is made to use an object that is not, or is no longer, usable"
  | Syntax => lit "An invalid or illegal string was specified"
  | InvalidModification => lit "An attempt was made to modify the type of the underlying object"
  | Namespace => lit "An attempt was made to create or change an object in a way which is incorrect with regard to namespaces"
  | InvalidAccess => lit "A parameter or an operation is not supported by the underlying object"
  end.
(** parser/mod.rs 42-55; [q] is the text of the quick-xml error, which the model does not have *)
Definition perror_to_string (q : str) (e : perror) : str :=
  match e with
  | PEInvalidCharacter => lit "invalid character"
  | PEMalformed => lit "malformed"
  | PEDom e => lit "DOM error: " ++ error_to_string e
  | PEQuickXml => lit "quick-xml error: " ++ q
  end.

(** ** options.rs 90-98: [Binary].  [{:08b}] pads with zeros to eight characters, [{:#010b}] to ten with the [0b]. *)
Definition D0 : N := 48%N. Definition D1 : N := 49%N.
Fixpoint pos_binary (p : positive) (acc : str) : str :=
  match p with
  | xH => D1 :: acc
  | xO q => pos_binary q (D0 :: acc)
  | xI q => pos_binary q (D1 :: acc)
  end.
Definition binary (n : N) : str := match n with N0 => [D0] | Npos p => pos_binary p [] end.
Definition pad_zeros (w : nat) (s : str) : str := replicate (w - length s) D0 ++ s.
Definition options_binary (alternate : bool) (o : options) : str :=
  if alternate then lit "0b" ++ pad_zeros (10 - 2) (binary o) else pad_zeros 8 (binary o).

(** ** namespaced.rs 45-84 *)
Definition new_some (p : str) : ns_prefix := PfxSome p. (* 49-51 *)
Definition prefix_is_none (p : ns_prefix) : bool := match p with PfxNone => true | _ => false end. (* 56-58 *)
Definition prefix_is_default (p : ns_prefix) : bool := match p with PfxDefault => true | _ => false end. (* 63-65 *)
Definition prefix_is_some (p : ns_prefix) : bool := match p with PfxSome _ => true | _ => false end. (* 70-72 *)
Definition prefix_some (p : ns_prefix) : option str := match p with PfxSome s => Some s | _ => None end. (* 78-83 *)
