{"id": "C01", "title": "Escaped text is lossless and markup-free", "statement": "For a Text or Comment node, `data()` (and therefore Display) returns the stored value with every one of & < > ' \" replaced by its decimal character reference and nothing else changed: the result contains none of < > ' \", every & in it starts a reference `&#38;`, `&#39;`, `&#62;`, `&#60;` or `&#34;`, decoding the references gives back exactly the stored value, and two different values never have the same data. For a CDATA section `data()` is the stored value itself.", "quantifier": "every string value", "why_tests_cant": "the claim is about every string, including ones that already look like references", "anchors": ["src/shared/text.rs: escape, to_entity", "src/level2/traits.rs: CharacterData::data"]}
{"id": "C02", "title": "length() measures escaped bytes", "statement": "`CharacterData::length()` is the UTF-8 byte length of `data()`. For Text and Comment it is at least the byte length of the stored value, and equal to it exactly when the value has none of the five special characters; for CDATA it is always the byte length of the value.", "quantifier": "every node and value", "why_tests_cant": "needs an induction over all strings; a test can only show single values", "anchors": ["src/level2/traits.rs: CharacterData::length, data", "src/shared/text.rs: escape"]}
{"id": "C03", "title": "End-of-line normalisation", "statement": "The line-end step of attribute-value normalisation replaces CR LF, CR NEL, lone CR, NEL and LS by one LF and changes nothing else; its result contains no CR, NEL or LS, applying it again changes nothing, it never lengthens the string, and a string without these characters is unchanged.", "quantifier": "every string", "why_tests_cant": "quantifies over all strings and all ways line ends can be adjacent", "anchors": ["src/shared/text.rs: normalize_end_of_lines"]}
{"id": "C04", "title": "Attribute value of reference-free text", "statement": "If the text stored in an attribute contains no `&` and no `%`, `value()` never panics and returns the escape of: line ends normalised, then tab/LF/CR turned into spaces, then leading and trailing spaces removed (inner runs of spaces are kept).", "quantifier": "every attribute whose stored text has no & or %, any owner document state", "why_tests_cant": "all strings", "anchors": ["src/shared/text.rs: normalize_attribute_value", "src/level2/trait_impls.rs: Attribute::value"]}
{"id": "C05", "title": "Character references in attribute values", "statement": "`value()` replaces every well-formed `&#ddd;` and `&#xhhh;` whose code is a Unicode scalar value by that character, left to right and without rescanning the result; a reference whose number is not a Unicode scalar value (surrogate, above 10FFFF, above u32) or uses non-ASCII digits makes the call panic.", "quantifier": "every attribute text", "why_tests_cant": "infinitely many reference spellings and positions; panics must be excluded for all the others", "anchors": ["src/shared/text.rs: normalize_attribute_value, char_from_entity"]}
{"id": "C06", "title": "Named entity references make value() panic", "statement": "Reading the value of an attribute whose stored text contains a named reference (`&name;` or `%name;`) never returns: it panics whatever document type, entities or owner document exist. Conversely value() on a text without named references and with only valid character references always returns.", "quantifier": "every attribute text, every document state", "why_tests_cant": "a test shows one panic; the exact boundary of the panicking inputs is a statement over all texts", "anchors": ["src/level2/entity_resolver.rs: resolve", "src/shared/text.rs: normalize_attribute_value", "src/level2/trait_impls.rs: Attribute::value"]}
{"id": "C07", "title": "Attribute values are stable when written back", "statement": "If `value()` returned v and the decoded v contains no tab, LF, CR, NEL, LS or `%`, then storing v with `set_value(v)` and reading again returns v (so escaping does not accumulate); for values with such characters (obtained from character references) it can change.", "quantifier": "every attribute text", "why_tests_cant": "fixpoint statement over all strings", "anchors": ["src/shared/text.rs: normalize_attribute_value, escape", "src/level2/trait_impls.rs: Attribute::set_value, value"]}
{"id": "C08", "title": "Name parsing accepts exactly the documented grammar", "statement": "For every string whose parts start with an ASCII character, `Name::from_str` returns Ok exactly when the string is `local` or `prefix:local` with each part one NameStartChar followed by NameChars (no colon inside); the resulting parts are those two strings and no namespace. The local part is checked before the prefix: empty string, more than one colon, an empty local part, or a good local part with an empty prefix gives Syntax; a bad character in the local part, or a good local part with a bad character in the prefix, gives InvalidCharacter.", "quantifier": "every string", "why_tests_cant": "all strings", "anchors": ["src/shared/name.rs: Name::from_str, check_part, new", "src/shared/text.rs: is_xml_name"]}
{"id": "C09", "title": "Name parsing and printing round-trip", "statement": "Whenever `Name::from_str(s)` is Ok, printing the name gives s back; whenever a parsed name is printed and reparsed the same name is obtained; `Name::new_ns(u, s)` prints as s and keeps u.", "quantifier": "every string / every parsed name", "why_tests_cant": "all strings", "anchors": ["src/shared/name.rs: Display for Name, from_str, new_ns"]}
{"id": "C10", "title": "Name parsing panics on a non-ASCII first letter", "statement": "`Name::from_str` (and so every create_* / attribute call taking a name) never panics on input in which no checked part starts with a multi-byte NameStartChar, and panics when the local part starts with one, although such names are legal XML.", "quantifier": "every string", "why_tests_cant": "exact panic boundary over all strings", "anchors": ["src/shared/text.rs: is_xml_name", "src/shared/name.rs: check_part"]}
{"id": "C11", "title": "Reserved namespace rules", "statement": "`Name::new_ns(u, q)` succeeds exactly when q parses, u is not empty, and whenever the prefix or the local name is `xml` (resp. `xmlns`) u is the reserved XML (resp. XMLNS) namespace; otherwise it is Syntax (empty u) or Namespace.", "quantifier": "every pair of strings", "why_tests_cant": "all strings", "anchors": ["src/shared/name.rs: new_ns, check_namespace_uri"]}
{"id": "C12", "title": "Namespace- and id-attribute recognition", "statement": "`for_namespace(p)` is recognised by `is_namespace_attribute` for None and every non-empty p and panics only for the empty prefix; a name is a namespace attribute exactly when its namespace is the XMLNS URI and it is `xmlns` without prefix or has the prefix `xmlns`; strict id attributes are exactly local name `id` with prefix `xml` or the XML namespace, and every strict id attribute is a lax one.", "quantifier": "every name", "why_tests_cant": "all names", "anchors": ["src/shared/name.rs: for_namespace, is_namespace_attribute, is_id_attribute, for_xml_id"]}
{"id": "C13", "title": "Processing options are independent flags", "statement": "Each set_* turns its own option on, leaves the other two as they were, is idempotent and commutes with the others; a new value has none; `has_none` is false after any set; `|` and `&` act option-wise; Display lists exactly the options that are on.", "quantifier": "every option value (all 256 bytes) and every sequence of set calls", "why_tests_cant": "sequences of arbitrary length", "anchors": ["src/level2/ext/options.rs: ProcessingOptions"]}
{"id": "C14", "title": "XML declaration encoding grammar and rendering", "statement": "`XmlDecl::new` accepts exactly encodings of the form [A-Za-z]([A-Za-z0-9._]|'-')* and panics otherwise; the printed declaration determines version, encoding and standalone uniquely; XmlVersion printing and parsing are inverse and everything else is rejected.", "quantifier": "every version, encoding string and standalone flag", "why_tests_cant": "all encoding strings", "anchors": ["src/level2/ext/decl.rs: XmlDecl, XmlVersion, is_encoding"]}
{"id": "C15", "title": "Unquoting", "statement": "The parser's unquote removes one pair of equal quotes around a string of at least two characters, returns unquoted strings unchanged, rejects a string that opens with a quote and does not end with the same one, and panics on a string that is a single quote character.", "quantifier": "every string", "why_tests_cant": "all strings", "anchors": ["src/parser/mod.rs: unquote"]}
{"id": "C16", "title": "substring_data", "statement": "With the stored value cut as l ++ m ++ r at byte offsets, `substring_data(|l|, |m|)` is m; a count reaching past the end returns the rest; count 0 returns the empty string for any offset; offset at or past the end (or no value) is IndexSize; an offset or end inside a character panics. The node is never changed.", "quantifier": "every stored value, offset and count", "why_tests_cant": "all strings, offsets and counts, incl. boundary and overflow", "anchors": ["src/level2/trait_impls.rs: CharacterData::substring_data"]}
{"id": "C17", "title": "replace/insert/delete/append_data", "statement": "With the stored value cut as l ++ m ++ r, `replace_data(|l|,|m|,x)` stores l ++ x ++ r (end clipped), `insert_data` stores l ++ x ++ m ++ r, `delete_data` stores l ++ r, `append_data` adds at the end; offset at or past the end is IndexSize (also for insert at the very end, and for any insert into an empty value) and nothing changes; only this node's value changes, all other nodes and links stay as they were.", "quantifier": "every stored value, offset, count, argument and heap", "why_tests_cant": "all strings, offsets, counts", "anchors": ["src/level2/trait_impls.rs: CharacterData::replace_data, insert_data, delete_data, append_data"]}
{"id": "C18", "title": "Character-data edits compose as on strings", "statement": "Inserting x at a boundary inside the value and then deleting |x| bytes there restores the value (when the remainder is not empty); substring after insert returns the inserted text; delete then insert of the deleted text restores the value unless it was a deletion up to the end.", "quantifier": "every value, boundary and text", "why_tests_cant": "algebraic laws over all strings", "anchors": ["src/level2/trait_impls.rs: CharacterData"]}
{"id": "C19", "title": "offset+count overflow", "statement": "With overflow checks on, substring_data, delete_data and replace_data (on a node with a usable offset) panic exactly when offset + count does not fit in usize; without checks they take the wrapped sum, which lies before the offset, as the end, and so panic on the slice (with a usable offset) instead of clipping.", "quantifier": "every offset and count", "why_tests_cant": "exact boundary over 2^128 argument pairs", "anchors": ["src/level2/trait_impls.rs: substring_data, delete_data, replace_data"]}
{"id": "C20", "title": "Text::split", "statement": "If a text or CDATA node's value has no special character and is cut as l ++ r at the offset, split leaves l in the node, returns a new node of the same type with value r and the same owner, inserted directly after the node in its parent (last if the node was last), all other nodes unchanged; the concatenation of the two values is the old value. An offset at or past the escaped length creates an empty node and changes nothing in the original.", "quantifier": "every tree, text value and offset", "why_tests_cant": "all trees and values", "anchors": ["src/level2/trait_impls.rs: Text::split"]}
{"id": "C21", "title": "split uses the escaped length", "statement": "For a Text node with special characters, split at an offset between the stored length and the escaped length fails with IndexSize although DOM asks for an empty new node; on a Comment node split deletes the tail of the comment and then reports Syntax.", "quantifier": "every value and offset in the stated region", "why_tests_cant": "region over all values", "anchors": ["src/level2/trait_impls.rs: Text::split"]}
{"id": "C22", "title": "Only permitted child types", "statement": "In every state reachable through the API, every child of a node has a type that the DOM structure model allows under the parent's type (Document: Element, PI, Comment; Attribute: Text, EntityReference; Element, EntityReference, Entity, DocumentFragment: Element, Text, Comment, PI, CDATA, EntityReference; all others: nothing).", "quantifier": "every finite history of API calls, including failed ones", "why_tests_cant": "histories are unbounded", "anchors": ["src/level2/trait_impls.rs: is_child_allowed, insert_before, replace_child", "src/level2/node_impl.rs: clone_node, new_attribute"]}
{"id": "C23", "title": "At most one document element", "statement": "In every reachable state a Document node has at most one Element child.", "quantifier": "every finite history of API calls", "why_tests_cant": "histories are unbounded", "anchors": ["src/level2/trait_impls.rs: insert_before, replace_child", "src/level2/node_impl.rs: clone_node"]}
{"id": "C24", "title": "Identity of a node never changes", "statement": "A node's type, name and owner document are fixed at creation: no later call on any node changes them (set_attribute, insert, move, clone, normalize, split, failed calls included).", "quantifier": "every history and every node", "why_tests_cant": "histories are unbounded", "anchors": ["src/level2/trait_impls.rs", "src/level2/node_impl.rs"]}
{"id": "C25", "title": "Children belong to the parent's document", "statement": "In every reachable state a child of a non-Document node has the same owner document as its parent, an attribute in an element's map has the element's owner document, and a child of a Document that was not produced by clone_node is owned by that Document.", "quantifier": "every history", "why_tests_cant": "histories are unbounded", "anchors": ["src/level2/trait_impls.rs: check_same_document, insert_before, set_attribute_node"]}
{"id": "C26", "title": "parent_node is sound", "statement": "In every reachable state, if `c.parent_node()` is p then c occurs in `p.child_nodes()`, unless p is an Attribute; hence the parent always has children and next/previous sibling lookups find c.", "quantifier": "every history", "why_tests_cant": "histories are unbounded", "anchors": ["src/level2/trait_impls.rs: insert_before, remove_child, parent_node, next_sibling"]}
{"id": "C27", "title": "Tree links are two-way consistent", "statement": "In every history without deep clones, without removal/normalisation calls on Attribute nodes and without passing a non-attribute to remove_attribute_node: c is in `p.child_nodes()` exactly when `c.parent_node()` is p (p not an Attribute), and no child list contains a node twice. With any one of these calls allowed this can fail.", "quantifier": "every such history; witnesses for the failing ones", "why_tests_cant": "histories are unbounded", "anchors": ["src/level2/trait_impls.rs: insert_before, remove_child, remove_attribute_node", "src/level2/node_impl.rs: clone_node, new_attribute"]}
{"id": "C28", "title": "The tree is acyclic unless an ancestor is inserted", "statement": "In every history in which no insert puts a node under itself or its own descendant, no node is its own ancestor. The API does not reject such inserts: inserting a node under its descendant succeeds and creates a cycle, inserting a node into itself panics.", "quantifier": "every history; witness for the unchecked insert", "why_tests_cant": "histories are unbounded", "anchors": ["src/level2/trait_impls.rs: insert_before"]}
{"id": "C29", "title": "insert_before placement", "statement": "On success new_child is returned and ends directly before ref_child (at the end without ref_child), the order of the other children is unchanged; except when new_child was already a child of the same parent somewhere before ref_child: then it ends directly after ref_child.", "quantifier": "every consistent tree, new_child, ref_child", "why_tests_cant": "all trees and positions", "anchors": ["src/level2/trait_impls.rs: insert_before"]}
{"id": "C30", "title": "insert_before moves and frames", "statement": "On success the new child's parent is the receiver, it is gone from its previous parent's list, and no other node's value, name, parent, attributes or children change.", "quantifier": "every consistent tree", "why_tests_cant": "all trees", "anchors": ["src/level2/trait_impls.rs: insert_before, append_child"]}
{"id": "C31", "title": "insert_before is atomic on error", "statement": "insert_before/append_child fail exactly with HierarchyRequest (type not allowed or second document element), NotFound (ref_child not a child) or WrongDocument, in that order of checking (or, last, NotFound when the new child's recorded parent does not list it, which only a stale parent that is an Attribute can cause), and then nothing at all has changed.", "quantifier": "every state and arguments", "why_tests_cant": "all states", "anchors": ["src/level2/trait_impls.rs: insert_before, check_same_document"]}
{"id": "C32", "title": "remove_child", "statement": "remove_child succeeds exactly when the node is in the receiver's child list; then it is returned with no parent, the first occurrence is gone from the list, order of the others is kept and nothing else changes; otherwise NotFound and nothing changes.", "quantifier": "every state", "why_tests_cant": "all states", "anchors": ["src/level2/trait_impls.rs: remove_child"]}
{"id": "C33", "title": "replace_child", "statement": "On success old_child is returned detached and new_child occupies its place, unless new_child was an earlier sibling of a non-last old_child (then it ends one place too late). An error after the type and membership checks (WrongDocument, second document element) leaves old_child already removed.", "quantifier": "every consistent tree", "why_tests_cant": "all trees and positions", "anchors": ["src/level2/trait_impls.rs: replace_child"]}
{"id": "C34", "title": "Sibling navigation agrees with child_nodes", "statement": "In a consistent tree next_sibling/previous_sibling of the i-th child are the (i+1)-th/(i-1)-th child or None at the ends; they are inverse to each other; first_child/last_child are the ends; following next_sibling from first_child enumerates child_nodes.", "quantifier": "every consistent tree and position", "why_tests_cant": "all trees", "anchors": ["src/level2/trait_impls.rs: next_sibling, previous_sibling, first_child, last_child"]}
{"id": "C35", "title": "get_elements_by_tag_name is the document-order filter", "statement": "On an element without cycles below it get_elements_by_tag_name(t) returns, in document order, exactly the elements reachable through element children, itself included, whose printed name is t (or all of them if t is `*`), each once per occurrence; on other node types it is empty. The _ns form likewise by namespace and local name with `*` wildcards. On a Document it searches from the first child only.", "quantifier": "every tree and tag", "why_tests_cant": "all trees", "anchors": ["src/level2/trait_impls.rs: get_elements_by_tag_name, get_elements_by_tag_name_ns, tag_name_match, namespaced_name_match"]}
{"id": "C36", "title": "document_element is the first child", "statement": "document_element() is the first child of the document, so it is the element only when nothing precedes it: with a comment or PI first it is that node and document-wide tag searches return nothing.", "quantifier": "every document", "why_tests_cant": "all documents", "anchors": ["src/level2/trait_impls.rs: document_element, Document::get_elements_by_tag_name"]}
{"id": "C37", "title": "clone_node", "statement": "clone_node returns a fresh node with the same type, name, value, owner document and attribute map, no parent, no children (shallow) or clones of the children in order (deep); nothing existing changes, deep clones share no tree node with the original, but attribute nodes are shared with the original, and cloned children have no parent.", "quantifier": "every acyclic tree", "why_tests_cant": "all trees", "anchors": ["src/level2/node_impl.rs: NodeImpl::clone_node", "src/level2/trait_impls.rs: clone_node"]}
{"id": "C38", "title": "normalize", "statement": "On a consistent node, normalize leaves its children with no empty Text and no two adjacent Text nodes, keeps the non-text children and their order, keeps the concatenated text between them, changes no deeper level, and is idempotent; it never panics.", "quantifier": "every consistent tree", "why_tests_cant": "all trees", "anchors": ["src/level2/trait_impls.rs: normalize"]}
{"id": "C39", "title": "Attribute map is keyed by node name", "statement": "In every reachable state the attribute map of an element has at most one entry per full name, each entry is an Attribute node whose node_name is its key.", "quantifier": "every history", "why_tests_cant": "histories are unbounded", "anchors": ["src/level2/trait_impls.rs: set_attribute_node, remove_attribute_node, attributes"]}
{"id": "C40", "title": "set then get attribute", "statement": "After a successful set_attribute(n, v) on an element whose attributes have pairwise different printed names and no namespaced attribute printed n, get_attribute(n) returns the normalised, escaped v (or panics when v has a reference that cannot be expanded), has_attribute(n) is true, and the attributes with other names are unchanged; whatever order the hash map iterates in. Without the conditions on the printed names the value read depends on the hash order. set_attribute_ns and get_attribute_ns likewise by namespace and local name.", "quantifier": "every element, name, value and hash order", "why_tests_cant": "all hash orders and histories", "anchors": ["src/level2/trait_impls.rs: set_attribute, get_attribute, set_attribute_node"]}
{"id": "C41", "title": "remove attribute", "statement": "remove_attribute(n) removes exactly the attribute printed n if there is one (has_attribute becomes false when printed names are pairwise different), leaves the others, succeeds silently when absent; the removed node keeps its owner_element, and ids and namespace mappings it introduced remain.", "quantifier": "every element and name", "why_tests_cant": "all states", "anchors": ["src/level2/trait_impls.rs: remove_attribute, remove_attribute_node"]}
{"id": "C42", "title": "Attribute ownership is not exclusive", "statement": "set_attribute_node does not reject an attribute already used by another element: afterwards both elements list the same node and owner_element() names only the last one. Within one element, right after a successful set_attribute_node(a) owner_element(a) is that element.", "quantifier": "every state", "why_tests_cant": "all states", "anchors": ["src/level2/trait_impls.rs: set_attribute_node, owner_element"]}
{"id": "C43", "title": "Ids are registered once and forever", "statement": "Once get_element_by_id(k) on a document has returned e, every later call on that document returns e as long as e is alive, whatever calls happen in between; a later attempt to register k again fails with Syntax.", "quantifier": "every history", "why_tests_cant": "histories are unbounded", "anchors": ["src/level2/trait_impls.rs: set_attribute_node, get_element_by_id"]}
{"id": "C44", "title": "Setting a duplicate id is not atomic", "statement": "When set_attribute/set_attribute_node fails because the id is already registered, the attribute has nevertheless been added to the element.", "quantifier": "every state with a registered id", "why_tests_cant": "all states", "anchors": ["src/level2/trait_impls.rs: set_attribute_node"]}
{"id": "C45", "title": "Namespace mapping lookup", "statement": "resolve_namespace(p) on an element is the mapping of p on the nearest ancestor-or-self element that has one, None if there is none; get_namespace is the element's own mapping, contains_mapping says whether it exists; all are None/false when the document was created without the add-namespaces option.", "quantifier": "every tree and prefix", "why_tests_cant": "all trees", "anchors": ["src/level2/ext/namespaced.rs"]}
{"id": "C46", "title": "Prefix lookup is consistent with namespace lookup", "statement": "If get_prefix(u) is Default or Some(p) then get_namespace of that prefix is u; it is None exactly when no prefix maps to u; likewise resolve_prefix returns a mapping found on the nearest ancestor-or-self that maps something to u; for every hash order.", "quantifier": "every tree, uri and hash order", "why_tests_cant": "all hash orders", "anchors": ["src/level2/ext/namespaced.rs: get_prefix, resolve_prefix"]}
{"id": "C47", "title": "Namespace declarations are recorded under the wrong prefix", "statement": "Setting an attribute `xmlns:p` in the XMLNS namespace records its value under the prefix `xmlns`, not p, and a default `xmlns` under no prefix; documents built by the parser record no mapping at all.", "quantifier": "every prefix and uri", "why_tests_cant": "all names", "anchors": ["src/level2/trait_impls.rs: set_attribute_node", "src/parser/mod.rs: handle_start"]}
{"id": "C48", "title": "create_document", "statement": "create_document(ns,qn,dt): no name and no namespace gives a document without children; a name gives a document with exactly one child, an element of that name owned by it and with it as parent; a namespace without name is Namespace; a bad name is the name's error. Nothing existing changes.", "quantifier": "every argument combination and state", "why_tests_cant": "all names", "anchors": ["src/level2/trait_impls.rs: create_document_with_options, create_document"]}
{"id": "C49", "title": "Node factories", "statement": "Every create_* on a document returns a fresh, parentless node of the right type with the given name and content and that document as owner, and changes no existing node; create_processing_instruction rejects every capitalisation of `xml` with Syntax.", "quantifier": "every document, name and content", "why_tests_cant": "all names and contents", "anchors": ["src/level2/trait_impls.rs: create_*"]}
{"id": "C50", "title": "has_feature", "statement": "has_feature/is_supported is true exactly for Core or XML with version 1.0 or 2.0.", "quantifier": "every pair of strings", "why_tests_cant": "all strings", "anchors": ["src/level2/trait_impls.rs: has_feature, is_supported"]}
{"id": "C51", "title": "Display reflects the tree", "statement": "The printed form of a node without cycles below it is the rendering of its abstract tree: start tag with name and attributes in some order, children in order, matching end tag; text and attribute values escaped; it does not depend on node identities and, up to the order of attributes, not on hash order.", "quantifier": "every acyclic tree and hash order", "why_tests_cant": "all trees and hash orders", "anchors": ["src/shared/display.rs"]}
{"id": "C52", "title": "Content cannot inject markup", "statement": "For a tree of elements, text, attributes, comments, CDATA sections without ]]> and processing instructions without >, reading the printed form back with a reference reader yields the same tree, whatever strings were put in text and attribute values; a CDATA section has a space more at each end. Without sections and instructions the markup characters < > in the printed form come only from the structure. With ]]> or ?> inside them, trees of different shape print the same.", "quantifier": "every such tree and content strings", "why_tests_cant": "all content strings", "anchors": ["src/shared/display.rs", "src/shared/text.rs: escape"]}
{"id": "C53", "title": "Parser builds the tree of the events", "statement": "For the event sequence of a well-formed document (names starting with ASCII letters, no ids clashing), reading succeeds and the resulting document has exactly the tree described by the events, in order, with attributes set.", "quantifier": "every tree", "why_tests_cant": "all trees", "anchors": ["src/parser/mod.rs: document, element, handle_*"]}
{"id": "C54", "title": "Parser results respect the DOM invariants", "statement": "Whatever event sequence is read, the document returned satisfies all reachable-state invariants above and has consistent, acyclic links.", "quantifier": "every event sequence", "why_tests_cant": "all event sequences", "anchors": ["src/parser/mod.rs"]}
{"id": "C55", "title": "Parser ignores errors inside the document element", "statement": "An error found below the root element (including an unclosed element at end of input) is not reported: reading continues with the next event and can succeed with a truncated tree; errors at top level are reported. A tag with an attribute that is refused (value not decodable, or bad name) likewise: reported for the document element, below it swallowed, and the element stays with the attributes before that one.", "quantifier": "every event sequence", "why_tests_cant": "all event sequences", "anchors": ["src/parser/mod.rs: document, element"]}
{"id": "C56", "title": "Dropping the document", "statement": "If the owner document of two nodes has been dropped, append_child between them panics when the child type is allowed and no earlier check fails; parent_node/owner_document/owner_element/get_element_by_id return None for dropped targets and never a wrong node.", "quantifier": "every history with drops", "why_tests_cant": "all drop points", "anchors": ["src/level2/trait_impls.rs: check_same_document, parent_node, owner_document"]}
{"id": "C57", "title": "Tree walks terminate on acyclic trees", "statement": "Display, tag search, deep clone and namespace resolution return for every acyclic state; on a cyclic one (which the API can create) Display, tag search and deep clone from a node on the cycle never return.", "quantifier": "every acyclic heap; every recursion depth on the cyclic witness", "why_tests_cant": "non-termination cannot be observed by a test", "anchors": ["src/level2/trait_impls.rs: get_elements_by_tag_name, clone_node", "src/shared/display.rs"]}
{"id": "C58", "title": "Character classes", "statement": "is_xml_10_char and is_xml_11_char accept exactly the standards' Char up to 10FFF (so every legal character above is wrongly refused); the 1.1 restricted characters, space, name start and name characters are exactly the standards' classes; the 1.0 restricted characters are the five that escaping replaces, and escaped text contains none of them but &.", "quantifier": "every character", "why_tests_cant": "1.1 million characters", "anchors": ["src/shared/text.rs: is_xml_10_char … is_xml_name_char"]}
{"id": "C59", "title": "Tokens and lists of names", "statement": "is_xml_nmtoken/is_xml_nmtokens decide Nmtoken and Nmtokens (tokens separated by single spaces). is_xml_name/is_xml_names decide Name and Names if the words start with ASCII characters; otherwise names are read up to the first word that is no name, and the first word starting with a longer name start character panics.", "quantifier": "every string", "why_tests_cant": "all strings", "anchors": ["src/shared/text.rs: is_xml_name, is_xml_names, is_xml_nmtoken, is_xml_nmtokens"]}
{"id": "C60", "title": "xml:space values", "statement": "SpaceHandling is read from exactly the strings default and preserve; its printed form is the attribute xml:space=\"…\", which is never one that is read.", "quantifier": "every string", "why_tests_cant": "all strings", "anchors": ["src/shared/text.rs: SpaceHandling"]}
{"id": "C61", "title": "Numeric references written and read", "statement": "to_entity and to_entity_hex write the shortest decimal and hexadecimal numeral of the character cut to 16 bits; reading it back gives the character for every scalar value below 10000, and never for one above.", "quantifier": "every character", "why_tests_cant": "all characters", "anchors": ["src/shared/text.rs: to_entity, to_entity_hex, char_from_entity"]}
{"id": "C62", "title": "Normalisation with entities", "statement": "For every table of entities, normalize_attribute_value returns w exactly if w is the value described by XML 1.1 3.3.3 with nested replacement texts normalised (and trimmed, unless CDATA) on their own; it panics exactly if the walk meets an unknown entity or a number that is no character; it returns for tables without cycles and never returns if the walk enters a cycle.", "quantifier": "every entity table and value; every recursion depth", "why_tests_cant": "all tables, and non-termination cannot be observed by a test", "anchors": ["src/shared/text.rs: normalize_attribute_value"]}
{"id": "C63", "title": "Locality of calls", "statement": "Whatever its outcome, a call keeps every node not dropped alive, never changes a type, name or owner document, and changes only the parts of nodes (value, parent, children, maps) in its stated footprint; nodes of documents other than those of its arguments are unchanged; identities are never reused. Normalizing an attribute can change a text outside it.", "quantifier": "every call in every reachable state, panics included", "why_tests_cant": "all states and calls", "anchors": ["src/level2/trait_impls.rs", "src/parser/mod.rs"]}
{"id": "C64", "title": "Failed calls change nothing", "statement": "A call that returns an error has changed no node that existed before, except replace_child of an actual child, setting an attribute whose document has a registered identifier (Syntax), and splitting a comment (Syntax); in each of the three a change is left behind for some state.", "quantifier": "every call in every reachable state", "why_tests_cant": "all states and calls", "anchors": ["src/level2/trait_impls.rs", "src/level2/ext/dom_impl.rs"]}
{"id": "C65", "title": "The error contract", "statement": "Each call returns only the errors listed for it (15 calls return none, read_xml only HierarchyRequest, Syntax and InvalidCharacter), and every error listed for a call is returned by it in some reachable state.", "quantifier": "every call in every reachable state", "why_tests_cant": "all states and calls", "anchors": ["src/level2/trait_impls.rs", "src/shared/error.rs", "src/parser/mod.rs"]}
{"id": "C66", "title": "Conversions to interfaces", "statement": "For a live node, is_T answers true exactly if the node's type has interface T in the DOM's table (character data: text, comment and CDATA; documents also the declaration, elements also namespaces); as_T gives the node itself then and InvalidState otherwise; the answer never changes while the node exists; and a call is one a history may contain exactly if its receiver converts to the call's trait.", "quantifier": "every node in every reachable state; every call", "why_tests_cant": "all states, including all later ones", "anchors": ["src/shared/convert.rs", "src/level2/convert.rs", "src/level2/ext/convert.rs"]}
{"id": "C67", "title": "The outcome of every read", "statement": "Each of the 61 read calls (conversions as one family): if it stays at the node, it always ends, panics exactly in the stated cases (unreadable attribute value, name starting with a longer character, cut inside a character or overflow, implementation of a node that is no document) and gives an error exactly in two (failed conversion, substring past the end). Of the walks, none gives an error, the tag searches never panic, lookups panic exactly if the climb meets a freed parent, and printing panics exactly if it reaches an attribute whose value cannot be read.", "quantifier": "every read call, arguments, live node and reachable state", "why_tests_cant": "all states and arguments; absence of panics", "anchors": ["src/level2/trait_impls.rs", "src/level2/traits.rs", "src/level2/ext/namespaced.rs", "src/shared/display.rs"]}
{"id": "C68", "title": "The panic contract", "statement": "On live nodes each of the 36 single calls that change something panics exactly in the cases listed for it: a name starting with a longer name start character, an insertion, split or attribute change whose document is gone, a node put under itself, a cut inside a character or an overflow, an id or namespace attribute whose value cannot be read, removing an element as its own attribute; remove_child, clone, normalize, and the calls that only store text never panic. Reading a document panics only if some event is one of the listed kinds (declaration without version, with bad version, encoding or lone quote; bad element name or processing instruction target; malformed attribute list; attribute name starting with a longer character; xml:id with a bad reference), and each kind does make some document panic.", "quantifier": "every call in every reachable state with live nodes; every event sequence", "why_tests_cant": "all states and calls; absence of panics", "anchors": ["src/level2/trait_impls.rs", "src/level2/ext/dom_impl.rs", "src/parser/mod.rs"]}
{"id": "C69", "title": "What a node was made with", "statement": "At any later time at which the node still exists, a node made by a factory call answers its getters (type, names, target, identifiers, notation name, specified, document type, implementation, entities, notations) with what the call's arguments say; a copy answers like its original; the first value is the one given; is_supported is true exactly for Core and XML, 1.0 and 2.0; has_attributes exactly if there is one.", "quantifier": "every factory call in every reachable state, every later state", "why_tests_cant": "all histories after the call", "anchors": ["src/level2/trait_impls.rs: getters of all node traits", "src/level2/trait_impls.rs: clone_node"]}
{"id": "C70", "title": "Values, mappings, prefixes and default declarations", "statement": "set_node_value and unset_node_value change exactly the value of that node, whatever its type. Attribute::unset_value removes the text of the attribute, and with it its value, and changes nothing else (its former text nodes keep their parent). remove_attribute_ns, if the expanded names of the element's attributes differ, removes exactly the attributes with that expanded name, and nothing if the name is not qualified properly (so has_attribute_ns may stay true). On a namespace aware element inserting or removing a mapping changes exactly that mapping; other nodes refuse. Name::set_prefix changes the prefix only and does not check it. The default declaration prints as version 1.0 alone. set_xml_declaration sets the declaration of a document and changes nothing else; other nodes refuse it.", "quantifier": "every reachable state, node, name and string", "why_tests_cant": "all states and arguments", "anchors": ["src/level2/trait_impls.rs: set_node_value, remove_attribute_ns", "src/level2/ext/namespaced.rs", "src/shared/name.rs: set_prefix", "src/level2/ext/decl.rs", "src/level2/ext/trait_impls.rs: set_xml_declaration"]}
{"id": "C71", "title": "Hash order", "statement": "With the same build, only the removals and lookups of attributes by name, the lookups of prefixes and printing can depend on the order in which hash maps are walked: all other calls, histories of them, and reads give the same in every order. Removal and lookup by (expanded) name do not depend on it if the element has no two attributes printed alike (with the same expanded name), prefixes not if the URI is mapped once, printing not if no element has two attributes. Otherwise they do.", "quantifier": "every two iteration orders, every history, call and read", "why_tests_cant": "orders are random per map and run; all states", "anchors": ["src/level2/trait_impls.rs", "src/level2/ext/namespaced.rs", "src/shared/display.rs"]}
{"id": "C72", "title": "Debug and release builds", "statement": "With and without overflow checks every call and read does the same, except that insert_data, delete_data, replace_data, split and substring_data may be stopped by an overflow panic in the checked build, which needs offset plus count above usize::MAX (split: data of that length). A history without panic in the checked build runs identically in the other; but an unchecked build may write where the checked one stops.", "quantifier": "every call, read and history", "why_tests_cant": "all states and arguments in both profiles", "anchors": ["src/level2/trait_impls.rs: substring_data, replace_data, delete_data, split"]}
{"id": "C73", "title": "Memory", "statement": "Reference counting, applied to any reachable heap with any set of handles kept by the program, ends, in the same heap whatever the order, and keeps exactly the nodes that a kept handle reaches (through children, attributes and document type) or that hang from a cycle of such references. If no node is below itself and attributes hold only text, there is no cycle: without handles every node is freed. Appending a node below itself, or an element into an entity reference of its own attribute, leaks for ever.", "quantifier": "every reachable heap, every set of handles, every order of freeing", "why_tests_cant": "all heaps and all orders; leaks are invisible to assertions", "anchors": ["src/level2/trait_impls.rs: append_child, set_attribute_node", "src/shared/rc_cell.rs", "src/level2/node_impl.rs"]}
{"id": "C74", "title": "Print, read, print", "statement": "A document of elements, text, comments, CDATA sections without ]]> and processing instructions without > and &, with an optional declaration, printed in one heap and read in any other, comes back with the same declaration, names, comments and structure; text and the data of instructions lose the white space at their ends, a CDATA section gains a space at each end, and each attribute value is taken for attribute text once more. If values have no &, %, tab or line break, no space at their ends, text and data no white space at their ends, and there are no CDATA sections, the content is the same and is printed the same up to the order of attributes, literally so with at most one attribute per element. Otherwise values and text may change, and the document read may be one whose printing panics. Instructions are printed as they are but unescaped when read: one with an & is lost without notice inside an element, and makes the text unreadable at the top.", "quantifier": "every document of these node kinds in every reachable heap, every heap to read into", "why_tests_cant": "all trees, strings and hash orders; two components composed", "anchors": ["src/shared/display.rs", "src/parser/mod.rs: inner_read, document, element", "src/level2/trait_impls.rs: Attribute::value"]}
{"id": "C75", "title": "Calls on nodes of any type", "statement": "Every trait is implemented for every node, so a program may call it on a node of a type it was not meant for. In any history of such calls it still holds that children are of permitted types, a document has at most one element, type, name and owner never change, children and attributes share the owner of the node that holds them, a reported parent could hold the node, attribute maps are keyed by name, names are valid, and no processing instruction is called xml. Factories work on every node and make it the owner; element calls on other nodes are refused without changing any node; Attribute::unset_value empties any node. It no longer holds that the owner is a document, the document type one, or that a parent lists its child.", "quantifier": "every history of calls on nodes of any type", "why_tests_cant": "all histories, including those no test author would write", "anchors": ["src/level2/trait_impls.rs", "src/level2/traits.rs"]}
{"id": "C76", "title": "The borrow checks of RefCell", "statement": "Every node is read and written through a guard that RefCell hands out at run time, and a call panics if it needs a guard to a node that it already holds one to. Executed with all these checks, every call ends with the same nodes and the same result as without them, except that both panic; apart from setting attributes and reading documents even the reason is the same. So the states that can be reached are the same, and the panics are those already characterised. A guard is refused only when a node is put under itself, an element is removed from its own attributes, an attribute that counts as an id is set, or an attribute is set on the element that owns it.", "quantifier": "every state any calls can lead to, every call with live handles, every environment", "why_tests_cant": "aliasing between arguments and stored references; which guards are held depends on the whole path through a call", "anchors": ["src/level2/trait_impls.rs", "src/shared/rc_cell.rs", "src/level2/entity_resolver.rs", "src/parser/mod.rs", "src/shared/convert.rs"]}
{"id": "C77", "title": "A call depends only on what its nodes look like, and programs that share no nodes do not affect each other", "statement": "Take two states and a one to one correspondence between parts of them, closed under links, such that corresponding nodes have the same type, name, value and texts and corresponding links. The same call on corresponding nodes then has corresponding outcomes (node, error, panic or no return), leads to states that correspond again, with the nodes made paired in order, and changes nothing outside; every query has the same answer up to the names of the nodes. It follows that two programs that each use only the nodes they made, interleaved in any way, get exactly the results and answers they get when run alone, whatever the other does: panics, reads documents, drops nodes. No call reaches a node that is not linked to its arguments, and no result depends on how many nodes exist, on their addresses or on the order of allocation.", "quantifier": "every pair of corresponding states (no invariant assumed), every call and query, every interleaving of any length, every environment whose map order depends on the keys only", "why_tests_cant": "non-interference quantifies over pairs of runs and over all interleavings; a test compares two particular runs", "anchors": ["src/level2/trait_impls.rs", "src/level2/ext/dom_impl.rs", "src/parser/mod.rs", "src/level2/node_impl.rs"]}
{"id": "C78", "title": "Guards held by the caller can only make a call panic, and only if the call can reach the guarded nodes", "statement": "A client can borrow nodes itself (RefNode::borrow, borrow_mut) and keep the guards while it calls the library. Whatever guards are held, a call ends exactly as it does with none, or panics because a borrow is refused; holding more guards never lets through what fewer refuse. A query never changes anything; while only shared guards are held it has exactly its usual answer, otherwise it has that or panics. Guards to nodes outside a part of the state that is closed under links and has the arguments of the call make no difference at all. Under a mutable guard to the node it is asked of, every query panics except is_supported, specified and an empty substring; a call that only writes its own node panics under any guard to it and leaves everything as it was. Refuted: that a refused call leaves the state unchanged in general (append_child with a shared guard to the new parent leaves the child with a parent that does not list it).", "quantifier": "every list of guards, every call and query, every state (no invariant assumed), every environment", "why_tests_cant": "the set of guards held by the surrounding program is unbounded; tests call the API with none", "anchors": ["src/level2/trait_impls.rs", "src/shared/rc_cell.rs", "src/shared/convert.rs", "src/shared/display.rs", "src/level2/ext/namespaced.rs"]}
{"id": "C79", "title": "Error codes, node type codes and texts", "statement": "The numeric codes of errors and of node types are those of the DOM Level 2 constants (ExceptionCode, NodeType), and a code determines the error or type. The texts of two different errors differ, for DOM errors and for parser errors. The binary format of options is eight binary digits whose value is the options, after 0b in the alternate form, so it determines them; the display form determines exactly the three flags. The accessors of NamespacePrefix tell its three cases apart.", "quantifier": "every error, node type, option byte and prefix", "why_tests_cant": "tests check a few values; a copied number or text elsewhere goes unnoticed", "anchors": ["src/shared/error.rs", "src/level2/traits.rs", "src/level2/ext/options.rs", "src/level2/ext/namespaced.rs", "src/parser/mod.rs"]}
{"id": "C80", "title": "Counted references", "statement": "In a state whose reference counts are right (each is the number of handles the program has plus the number of references stored in nodes), dropping a handle ends, leaves the counts right, and frees exactly what is neither reachable from the remaining handles nor held by a cycle, which is what C73 describes; the node itself goes exactly with its last reference, and otherwise nothing goes. Cloning a handle and looking a weak reference up keep the counts right; looking up fails exactly for freed nodes. RcRefCell::unwrap hands out the value exactly if no other reference exists, passing on the references stored in it and leaving no parent link to the node; otherwise it panics and frees nothing. After any calls and any handles kept there are right counts.", "quantifier": "every reachable state, every multiset of handles, every node", "why_tests_cant": "counts are not observable through the DOM calls, and a wrong count shows as a leak or a lost node only in particular orders of drops", "anchors": ["src/shared/rc_cell.rs", "src/level2/node_impl.rs"]}
{"id": "C81", "title": "Types that come into being, and programs without leaks", "statement": "However a call ends, the types of the nodes existing afterwards are types that existed before or types that call creates (a fixed list per call; inserting, cloning, splitting, removing and editing add no type), so a type exists only if some call of the history makes it. No call frees a node, and a returned node exists. For a program with handles, calls, lookups and drops under reference counting: every node it has a handle to exists, right reference counts exist, and every existing node is reachable from a handle or hangs from a cycle. If moreover it puts no node under its own descendant and creates no entity reference, the existing nodes are at any time exactly those reachable from its handles. Either restriction is needed.", "quantifier": "every state, call, environment and outcome; every program of calls, lookups and drops", "why_tests_cant": "leaks are silent and depend on the whole history of links and drops", "anchors": ["src/level2/node_impl.rs", "src/level2/trait_impls.rs", "src/shared/rc_cell.rs"]}
{"id": "C82", "title": "Calls that take each other back, and calls made twice", "statement": "Inserting a node without a parent under a node that does not list it and removing it again gives back the state; removing a child and inserting it before its old next sibling gives back the very same state (while its document exists); so does replacing and replacing back, and moving a child to another parent and back. Appending twice is appending once (except for the document element, where the second call is refused). Inserting a child before the sibling it already directly precedes makes them change places, and a second time back. Splitting a text and normalising its parent gives tidy children that read the same. Each exception is real: a listed node, a move within one parent, the document element, a document that is gone.", "quantifier": "every reachable state, every parent, child and position", "why_tests_cant": "exact equality of the whole state over all trees, positions and histories", "anchors": ["src/level2/trait_impls.rs: insert_before, remove_child, replace_child, append_child, normalize, split"]}
{"id": "C83", "title": "Generations of printed and read documents", "statement": "Printing a document and reading the text again can be repeated any number of times, and each time the content changes exactly as one round does (C74): edges of text and instruction data go, references in values are replaced, a CDATA section gains a space at both ends. If no value contains & or % and no instruction &, a first round is always possible and after it nothing changes any more except the CDATA sections: after n more rounds each has n more spaces at both ends. So without CDATA sections the content is the same from the first round on, and with one no two generations have the same content. With references in values it may take longer (each round removes one level), but if all rounds up to a bound given by the longest value succeed, the content has settled by then. The result of the rounds is determined.", "quantifier": "every reachable state, every plain document, every number of rounds", "why_tests_cant": "unbounded number of generations of arbitrary documents", "anchors": ["src/parser/mod.rs: inner_read, document, element", "src/shared/display.rs", "src/shared/text.rs: normalize_attribute_value"]}
{"id": "C84", "title": "Reading event by event", "statement": "Whatever the events: a failed reading (error or panic) is final, it ends the same, in the same state, whatever events follow; each failure is due to exactly one event, all before it being accepted. Hence what is accepted is accepted wherever it is cut off, with the same document node: truncation is never noticed. End events missing or superfluous at the end of an accepted input make no difference (elsewhere they do). Reading on only adds to a node: children at its end, to the document also ids at the end of its map and a declaration it lacked. However it ends, reading makes at most one node for the document, one per item event and two per attribute.", "quantifier": "every event sequence, continuation, environment and reachable state", "why_tests_cant": "all event sequences, accepted or not, with all continuations", "anchors": ["src/parser/mod.rs: document, element, handle_*"]}
{"id": "C85", "title": "Edits of the tree as edits of the document", "statement": "Let a node stand for a document (C51), and let there be one way down from it to a node p that is not an attribute. Then inserting or appending a parentless node that does not contain p turns the document into the same document with the inserted one added at p, at the position of the reference child or at the end; removing a child takes out exactly that part; replacing a child of p, where p and its children agree on being that, by a parentless node that does not contain p replaces exactly that part; moving a child of one node to another does the first after the second; changing the text of p, by whichever call and however the call ends, replaces the text there, if p is not part of an attribute value. Whichever attribute call is made on an element p, and however it ends, the document is the same but for the attributes at p, which are those the element then has; setting an attribute by name puts the value given, read as an attribute value, in the place of the old one or last, if no attribute with a namespace is printed with that name; removing one by name leaves the others, if no two are printed alike. Setting or unsetting the value of an attribute through the attribute, however the call ends, replaces that attribute by what it then stands for, at the element that has it, if no other element has it too; after setting, that is the value given, read as an attribute value. Everything else, the declaration included, stays. A deep copy of a node stands for the same document as the node. With two-way links and no cycles there is never more than one way down. Text that is also part of an attribute value changes in both places.", "quantifier": "every reachable state, every document, place and environment", "why_tests_cant": "arbitrary documents, places and histories; that nothing else changes cannot be tested", "anchors": ["src/level2/node_impl.rs: insert_before, append_child, replace_child, remove_child, clone_node, CharacterData, set_attribute, remove_attribute, Attribute::set_value, unset_value", "src/shared/display.rs"]}
