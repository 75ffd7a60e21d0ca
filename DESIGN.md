# Design: a Rocq model of rust-xml_dom

## What is modelled

| File (rocq/theories) | Code | Contents |
|---|---|---|
| `Base.v` | std | strings as lists of Unicode scalar values, UTF-8 byte lengths, slicing, outcomes |
| `TextModel.v` | `shared/syntax.rs`, `shared/text.rs` | escaping, end-of-line and attribute normalisation, character classes, `SpaceHandling` |
| `NameModel.v` | `shared/name.rs` | `Name` |
| `ConfigModel.v` | `level2/ext/options.rs`, `level2/ext/decl.rs`, `unquote` of the parser | options, XML declaration |
| `Dom.v` | `level2/node_impl.rs`, `shared/rc_cell.rs` | nodes, heap, constructors, `clone_node` |
| `DomOps.v` | `level2/trait_impls.rs`, defaults in `level2/traits.rs`, `level2/entity_resolver.rs`, `level2/ext/dom_impl.rs`, `level2/ext/trait_impls.rs`, writes of `level2/ext/namespaced.rs` | every DOM call |
| `NsModel.v` | `level2/ext/namespaced.rs` | namespace lookups |
| `Display.v` | `shared/display.rs` | printing |
| `Parser.v` | `parser/mod.rs` | the event loop |
| `Access.v` | `shared/convert.rs`, `level2/convert.rs`, `level2/ext/convert.rs`, remaining getters and trait defaults | conversions; every read call as a `query` |
| `Borrow.v`, `BorrowAsk.v` | the same calls and queries | with the guards each takes and how long it holds them |
| `CodeModel.v` | `shared/error.rs`, `parser/mod.rs` 39-55, `NodeType`, `Binary` of options, `NamespacePrefix` | codes and texts |
| `RcModel.v` | `shared/rc_cell.rs` | reference counts: clone, drop, upgrade, unwrap |
| `History.v` | — | the language of API calls, `reachable` |

Each definition cites file and lines.

**Outcome of a call** is data: `Ok`, `Err e`, `Panic p` (unwrap, slice, borrow, overflow, explicit) or
`Diverge` (recursion fuel exhausted, i.e. stack overflow). A mutator is `heap -> heap * res A`, so what a failing
call leaves behind is visible.

**Heap**: node identities (`nat`, never reused) to node contents. `RefNode` equality is pointer
equality, here identity equality. Weak references (parent, owner document, owner element, id map) are
identities; upgrading succeeds while the identity is alive. Freeing is an explicit `ODrop` step that may free
any set of nodes that no surviving node holds strongly.

**Environment** (`env`), universally quantified in the theorems: overflow checks on or off, the
regex crate's classes `\pL` and `\d` (assumed: their ASCII part, and that they contain neither U+0085 nor U+2028), `HashMap` iteration order (only
assumed to be a permutation, and may differ from call to call in a history).

## What is not modelled

* quick-xml: the parser theorems start from the events it delivers, including its failures.
* Direct access to `NodeImpl` through `RcRefCell::borrow_mut`/`unwrap` (doc-hidden): that a client reads or writes fields
  itself. When `unwrap` hands out a value, and what becomes of its references, is modelled (`RcModel.v`). Borrow conflicts internal to a call are modelled: as panics in `DomOps.v`, and guard by guard in `Borrow.v` (calls)
  and `BorrowAsk.v` (queries), which C76 relates to `DomOps.v`. Guards a client holds while it makes a call are modelled as a list of
  guards taken before the call (C78). A guard to a node that is not allocated yet cannot be held, so reading a document, which
  touches new nodes only, starts from no guards.
* Memory exhaustion and the actual stack depth (a terminating recursion is assumed to fit).
* Logging, `Debug`, the texts of quick-xml's errors, the trait objects (a converted reference is the node itself),
  `get_implementation_version`.
* `normalize_mappings` (crate-private, `unimplemented!`), and `HashMap` iteration as anything but an
  arbitrary permutation of the entries.
* Which panic is raised when several are possible in one expression (borrow versus unwrap versus explicit) is
  modelled as the first in program order, with one exception: an id attribute whose text has a named reference
  panics in the code on a borrow, in `DomOps.v` on the missing entity (`Borrow.v` has the borrow).
* Documents abandoned by a failing `create_document`, or nodes abandoned by a failing call, stay
  allocated until an `ODrop` step; nothing refers to them.

## Trusted base

Coq 8.16.1's kernel and the VM for `vm_compute`; the reading of the Rust source into the model files;
the assumptions in `wf_env`. `Print Assumptions` follows the theorems in the `Prop*` files; see "Assumptions" below for what it lists.

## Assumptions

* Every theorem named in `MANIFEST.json` is reported "Closed under the global context": no axiom is used.
* A scan of all loaded libraries finds seven constants without body in `Coq.ssr.ssrunder` (`Under_rel.*`, a module type
  of Coq's own ssreflect library, loaded by stdpp). No theorem here depends on them.
* `wf_env E` is a hypothesis of theorems that depend on the environment; `wf_env0` proves it of the environment used in
  examples, so the hypothesis is satisfiable.
* `ordered_by_keys E` is a hypothesis of C77: both runs walk corresponding maps in the same order. `PropIso.v` proves it of
  two environments.
* `typed_op h o` is a hypothesis where a call is considered as made through `convert.rs`: the node whose trait method is
  called has a type for which the conversion hands out the trait. A history (`reachable`) consists of such calls. The other
  arguments are arbitrary live nodes. `wild` (C75, `SpecWild.v`) drops this hypothesis: any call on any node; the
  invariant that survives is in `ProofWildInv.v`.

## Files

`Spec*.v` hold the independent vocabulary of the statements (no proofs). `Proof*.v` hold lemmas. `Prop*.v` hold the property
theorems `Cnn_…`, the examples beside them and the `…_refuted` witnesses.

* `ProofInv.v` defines the invariant `Inv` of reachable heaps (identities below the counter; type, extension, owner, parent
  and children of a node agree; attribute maps, id maps and namespace maps are well formed) and the primitive heap steps.
  `ProofSteps.v`, `ProofOps.v` show every call to be a sequence of labelled primitive steps, so `Inv` holds in every
  reachable heap and label-based facts hold for whole histories.
* `ProofFrame.v` computes the footprint of every call with a small program logic (`fpM`), for all outcomes.
* `ProofErr.v` does the same for the errors (`ef`, `pef`).

## How each property is proved

* **C01, C02** structural induction over the string; the decoder of the specification is independent of the
  model's normaliser.
* **C03** against an inductive relation "line-end normal form" and directly for the four laws.
* **C04-C07** the scanner is shown equal to a specification given by a decomposition of the text into
  pieces (plain character, white space, reference); then instantiated.
* **C08-C12** the grammar is given as existential decompositions; names by case analysis.
* **C13** bitwise reasoning, for every `N`, hence every `u8`.
* **C14, C15** decompositions and injectivity.
* **C16-C19** cuts `s = l ++ m ++ r` with byte lengths.
* **C20, C21** from the exact results of substring, delete, insert.
* **C22-C28, C39, C43** invariants over `reachable` (all finite histories, any environment at each
  step). Every call is decomposed into a small set of primitive heap steps; invariants are shown for the
  primitive steps. Guarded histories (C27, C28) restrict the calls as stated; witnesses for the unguarded
  failures are computed.
* **C29-C34** exact description of the heap after the call; then list reasoning.
* **C35, C51, C52, C57** relation to an abstract rose tree (`tree_of`), fuel shown sufficient for acyclic heaps.
* **C36** one-step.
* **C37** fresh identities, isomorphism by tree relation.
* **C38** loop invariant over the snapshot of children.
* **C40-C42, C44, C47** exact description of `set_attribute_node`/`remove_attribute_node`.
* **C45, C46** induction along the parent chain against an inductive "nearest ancestor-or-self".
* **C48-C50** one-step.
* **C53-C55** induction on trees / event lists.
* **C56** invariants with drops plus one-step facts.
* **C57** induction on the recursion depth; non-termination by the absence of a sufficient fuel for every fuel.
* **C58-C61** case analysis on ranges and numerals; the classes are stated as the standards' ranges.
* **C62** relation of values to entity tables, induction on derivations and on fuel; divergence as unbounded walks.
* **C63** footprint logic over every call and the parser.
* **C64, C65** error logic over every call and the parser, with the invariant excluding impossible branches; tightness by a
  computed witness for each pair of call and error.
* **C66** table of interfaces against the conversion functions; stability from the invariance of node types (C24).
* **C67** one outcome lemma over all queries (panic, error or answer, each with its stated cause); walks by induction on
  recursion depth and on the path to the fault.
* **C68** per call an equivalence with an inductive list of causes (`SpecPanic.v`); the parser by a panic logic (`pp`) with
  the invariant that the document under construction is alive and plain; tightness by computed witnesses.
* **C69** getters are functions of the parts of a node that no call changes (names, types, extension identifiers), by an
  invariance lemma over labelled steps; then the factory calls' results.
* **C70** exact descriptions of the heap after the call.
* **C71** congruence of every computation in the two environments; where the order is used, uniqueness of what is looked for
  makes the first match independent of it.
* **C72** relation "equal, or overflow panic on the checked side", closed under sequencing.
* **C73** freeing one node is a step of a history; invariant "kept by a handle or a cycle" over the steps; ranks of node
  types and acyclicity exclude cycles of references.
* **C74** composition of C51 (what is printed), C52 (the reference reader reads it) and C53 (what the parser builds); the
  reader is `SpecRound.reader_events`, a description of quick-xml with `trim_text(true)` for this kind of document
  (elements, text, comments, CDATA sections, processing instructions, an XML declaration). It gives up on an instruction
  containing `>`, so that nothing is claimed about where the reader ends such an instruction. The code unescapes the text
  of instructions (mod.rs 337) although they are printed unescaped: an `&` without `;` is delivered as the failure quick-xml
  reports, other references in instructions are not described.
* **C75** the part of the invariant that needs no typed calls (`WInv`), again by labelled primitive steps over every call.
* **C76** a second transcription with a list of guards as an argument (`Borrow.v`); equality or agreement function by
  function; conflicts by a logic that excludes the borrow panic (`nb`).
* **C77** a relation between states, not an invariant of one: every computation takes related states to related states
  (`msim`), function by function; recursions are compared at a common fuel (`ProofFuel.v`: from `S (h_next h)` on the
  result no longer depends on the fuel); two clients by induction over the interleaving.
* **C78** "the same, or a borrow panic" is closed under sequencing (`tame`), function by function; queries also leave the heap
  alone (`ro`); for guards elsewhere a footprint logic on the closure under links (`foot`).
* **C79** case analysis against the tables of the DOM recommendation; induction on binary numbers.
* **C80** invariant of the work list of `release`: count = handles + pending drops + references stored in nodes; each removal is
  one of C73's steps, so the end result is C73's.
* **C81** one logic over all calls (`ProofTypes.v`), for any property of heaps kept by allocating nodes of allowed types and by
  changes that keep a node's type; used for "types come from this list" and for "this node exists". Programs by induction,
  each collection being C73's.
* **C82** exact states after an insertion (`ProofUndo.v`), from the outcome of C31 and the invariant; composition by equality of
  maps. The split and normalise part composes C20 and C38.
* **C83** iteration of C74 (`SpecGen.rounds` against `SpecGen.rereads`). Settling of values by a weight (length plus the number
  of white or line end characters other than space) that every changing round lowers; C74's readable contents are closed
  under the round. Again for the reader described in `SpecRound.v`.
* **C84** a logic of "adds to nodes below a bound, makes at most so many" over the handlers (`ProofStream.v`); reading on by an
  induction over the loops in which what happens after the cut is a parameter, used once for "adds" and once for end tags.
* **C85** `ProofEdit.v`: if only `p` shows a change, nodes without `p` below them stand for what they did, and a node with one
  way down to `p` (`SpecEdit.sole_path`) stands for the edited document (`SpecEdit.edit`). That only `p` shows a change
  comes from C63, the new children of `p` from the exact outcome of the call; the copy from C37.
  `ProofEditAttr.v`: a logic for the attribute calls, which write more than the element (namespaces, ids, the owner of the
  attribute) but nothing else that shows. The order of attributes in the document is that of the model's list; printing uses any.
  `ProofEditValue.v`: the same with two nodes showing a change, an element and an attribute only it has.
