# Formal model of yanun0323/goast in Coq 8.16.1

The properties are in `properties.jsonl` (C01–C78); this file says, for each,
what is modelled and how it is proved.  `MANIFEST.json` maps each property to
the exact theorem names.

## 1. Layout

| file (rocq/theories) | contents |
|---|---|
| `GoStr.v`   | bytes and strings, UTF-8 `range`, `strings.*`, `%d`, result type `Ok / Panic / OutOfFuel` |
| `Kind.v`    | packages charset, helper (pure part), kind, scope (scope kinds) |
| `Node.v`    | node.go: heap of nodes, every method of `*Node` |
| `Extract.v` | extractor.go: the tokeniser |
| `Reset.v`   | kind_resetter_*.go, findNext, skipNestNext |
| `Scope.v`   | scope.go: ParseScope and the getters |
| `Trie.v`    | trie.go |
| `Ast.v`     | ast.go, helper ReadFile/SaveFile over an abstract file system |
| `SpecNode.v`, `SpecHist.v` | chains, well-formed heaps, payloads; histories of API calls |
| `SpecPure.v`, `SpecUtf.v` | classes of texts, keyword tables, what a trie holds; UTF-8 (RFC 3629) |
| `SpecLex.v` | tokens: delimiters, words, line rule, bracket rule |
| `SpecScope.v` | where scopes start, declaration headers, bracket balance |
| `SpecText.v`, `SpecKinds.v` | what refining keeps of the text; the kind each token gets in functions, structs, interfaces and other types |
| `SpecAst.v` | file systems, slices, package clauses |
| `NodeProofs.v` … `NodeFinal.v` | lemmas about node.go |
| `PureProofs.v`, `TrieProofs.v`, `UtfProofs.v` | lemmas about the pure packages |
| `LexSpecProofs.v`, `ExtractHeap.v`, `LexRun.v` | the tokeniser refines the specification |
| `SplitProofs.v` | the splitting loop |
| `ResetWp.v`, `ResetRun.v`, `ResetTop.v`, `ResetSpec.v` | termination and frame of every resetter |
| `HeaderProofs.v`, `PrefixProofs.v`, `TextProofs.v`, `TypeText.v` | getters and text preservation |
| `KindProofs.v`, `KindCheck.v`, `TypeKinds.v`, `TypeCheck.v` | exact kinds; `*Check` are decision procedures used only to discharge the examples |
| `SpecIter.v` | callbacks that change the chain |
| `Local.v`, `LocalCanon.v`, `SpecLocal.v`, `LocalLex.v`, `LocalProofs.v` | independence of scopes, concatenation of texts |
| `ExtractCount.v`, `SpecConc.v`, `Conc.v` | nodes allocated by parsing; goroutines; the simulation for C63 |
| `SpecEdit.v` | edits of a file through its nodes |
| `SpecBoard.v`, `Board.v` | rows of cards: an abstract machine for node.go, and the refinement |
| `Print.v`, `SpecPrint.v`, `Assert.v`, `SpecAssert.v` | printing; package assert and Go values |
| `Tool.v`, `SpecTool.v`, `SpecRename.v`, `SpecMerge.v` | the example program of exported/main_test.go; renaming declarations, assembling files |
| `SpecGo.v`, `Go*.v` (but `GoStr.v`) | a grammar of Go files in gofmt's layout: how its sentences are written, the nodes and names expected after parsing; proofs; a checker for sentences (`GoCheck.v`) |
| `SpecLooks.v` | what is seen of an ast, package names, renamed declarations (C76) |
| `SpecOpaque.v`, `Opaque.v`, `SpecSpell.v` | tokens that can be exchanged for each other; lists of tokens that can be written down |
| `Iface.v`, `SpecIface.v` | ast.go over scopes of any type (the `Scope` interface implemented by the user): arbitrary methods, interface calls and file states as a log |
| `P_*.v`     | the property theorems, with an `Example` or a theorem beside each showing that its hypotheses are met |
| `ModelTests.v` | upstream's own unit tests replayed on the model by `vm_compute` (tests of the model's fidelity, not proofs) |

## 2. Modelling decisions

* A Go string / []byte is `list ascii` (all 256 bytes; invalid UTF-8 included).
* `*Node` is an optional index into a heap, the list of all nodes ever
  allocated.  Every method is a function from heap to heap, statement by
  statement (including `setPrev`/`setNext` cutting the old neighbour's link).
* Loops and recursions take explicit fuel and answer `OutOfFuel` when it runs
  out; theorems say "there is enough fuel", or are about divergence.  Panics are
  the value `Panic`.  No theorem treats either as a normal result.
* Map iteration order is an oracle: `ord i` is the order in which the opener
  table is enumerated at the i-th byte, quantified over all permutations,
  possibly different at each position.
* `go/format.Source`, `imports.Process`, `filepath.*`, and the success or failure
  of each OS call are fields of an arbitrary record `env`, universally
  quantified.  `SaveFile` yields every intermediate state of the file system, so
  a crash between any two steps, or after any number of written bytes, is one of
  the listed states.
* `append` on `[]Scope` works on backing arrays with capacity, so aliasing is
  visible; the growth policy is an arbitrary function.
* Go's `int` is `Z`: line numbers are bounded by the text length and cannot
  overflow.
* Goroutines (`SpecConc.v`) take turns on one heap, one API call at a time.  Calls
  are not cut into machine instructions; `C63_footprint` shows that calls of
  goroutines that share no nodes touch no common node, and the code has no other
  mutable state (package variables are tables that are never written; the debug
  flag is only read).  Sharing nodes is outside the library's contract (no locks).

Not modelled: `helper.DebugPrint` (writes to standard output if switched on; its
arguments are computed by `debugText`, which is modelled), the texts of failure
messages of package `assert`, `parenthesisResetter2` (unused), memory exhaustion
and stack overflow.

## 3. Plan per property

Nodes (heap invariants; `chain h ls` = the nodes `ls` are linked in this order
in both directions and the two ends are nil):

* C01 – inductive `reachable` over all API calls with arbitrary existing or nil
  arguments; invariant proved per operation, lifted by induction.
* C02–C06 – each operation on chains written `xs ++ n :: ys` and
  `us ++ nn :: vs`: the resulting chains, the results, frame.
* C07 – payload and link frame, for arbitrary heaps.
* C08 – acyclic = no node reaches itself by Next; preservation proved from C01;
  both directions for Replace.
* C09 – `IterNext` with an arbitrary stateful callback equals a fold over the
  chain; divergence for every fuel on a cycle.
* C10, C11 – deep copy: induction on the chain; independence as a frame theorem
  over all histories confined to the copy's nodes.
* C12, C13, C14 – direct specification; violations as `_refuted` theorems.

Pure packages:

* C15–C18 kind.New against an independent priority list; C19 scope keyword;
  C20–C22 helpers; C23 charset; C24–C27 trie against the list of insertions.

Tokeniser:

* C28–C31 – one simulation between `run` (nested, mutable, order-dependent) and
  a flat scanner `lex` written on lists of bytes; losslessness, token
  boundaries, kinds, termination and order independence follow.
* C32, C33 – line numbers and terminators, with `_refuted` witnesses.

ParseScope:

* C34–C36 – the splitting loop against a list partition of the tokens.
* C37, C38 – a single specification proved for every resetter by induction on
  fuel (termination: measure is the length of the remaining chain).
* C39 – text preservation under the stated restriction, `_refuted` in general.
* C40 – from the dispatch on the first node's kind.
* C41–C44 – getters on texts "header ++ arbitrary tail"; with any spaces and tabs between
  keyword and name in `P_Head.v`.

Ast and files:

* C45–C53 – direct specifications on the model of `Ast.v`, with `_refuted`
  witnesses where the code violates the claim.
* C49 – text of the saved file: built on C39 (per scope) and C34 (partition).

Exact kinds (the strongest statements about ParseScope; the specification is a
relation on the token list of a scope, without indices, buffers or pointers):

* C54 functions and methods, C55 structs, C56 interfaces, C57 other types –
  a walk over the chain for each resetter: the state is the list of nodes still
  to visit and the kinds already given; each specification rule is one lemma
  about the code's callback.
* C58 – tables, and the connection between a scope's kind and its first token.

Locality:

* C59 – a simulation between runs of the resetters on two heaps related by an
  injective renaming of nodes (`Local.v`), with a canonical heap for each list of
  texts and kinds (`LocalCanon.v`).
* C60 – the token specification of A ++ B from those of A and B (`LocalLex.v`),
  then pieces and C59 (`LocalProofs.v`).
* C61 – induction over the chain that is still ahead, for callbacks with an
  arbitrary state (`P_Iter.v`); `SpecIter.v` holds the callbacks spoken about.
* C62 – the pieces of C34 read off the source text with C28 and C30 (`P_Lines.v`).
* C63 – a simulation between the common run and each goroutine's run alone, up to
  renaming of nodes (`Conc.v`), by induction on the schedule; programs are
  arbitrary functions of what was seen.
* C64 – induction on the tokeniser's run, with its specification as a guide
  (`ExtractCount.v`).
* C65 – each call's exact effect (C02–C08, C11) on the chain of one scope, framed
  past the other scopes (`P_Edit.v`); parsed texts by C49.
* C66 – refinement in both directions between node.go and the abstract machine of
  `SpecBoard.v` (`Board.v`), then induction on histories.
* C67 – `exported/main_test.go:TestExample` modelled as a program (`Tool.v`);
  from C61 (removing while iterating) and C65 (documents), the scopes and nodes
  that stay and the text saved; a refuted theorem shows what it also loses.
* C68 – from C60 (declaration by declaration), C41 (headers) and C65 (SetText):
  renaming a declared function or type by SetText on its name node, in memory,
  in the saved file and when that file is parsed again.
* C69 – printed text as a value (`Print.v`): Print, the program TestUsecase, and the
  bounded debugText, also on circles.
* C70 – package assert on a model of Go values (`Assert.v`; reflect.Value.Equal and
  IsNil are transcribed from the standard library's documented behaviour);
  compared with the language's == (`SpecAssert.v`) by induction on values;
  symmetry and soundness hold for the values that panic as well.
* C71 – C60 and C68's notion of text-keeping declarations: scopes of several
  parses in one heap keep their views, so any selection can be saved.
* C72 – the simulation behind C59 (`Local.v`), with texts related instead of equal:
  no resetter and no getter looks at a text, the splitting loop only at prefixes
  that are scope keywords, the tokeniser only at delimiters.
* C73 – every node is on a chain or on a circle (pigeonhole on the heap); the first nil
  or circular scope decides what Save, Description and Copy do.  On circles the model's
  loops run out of their fuel; `C73_ring_for_ever` shows that no fuel is enough.
* C74 – induction on the list with C30's uniqueness of the first token; the converse is by
  induction on the scan.
* C75 – a grammar of files (`SpecGo.v`: package, import, var, const, comments, grouped
  types, functions and methods with type parameters of any constraints, structs with nested structs, interfaces with unions, aliases, named
  and function types; nested types; parameter lists in one or several lines with comments,
  parameters, results and receivers without a name or with the name `_`: `unnamed` says
  which of their identifiers the code takes for a name; functions without a body;
  comments after declarations; function types with any result, `named_first` says what
  becomes of it; fields, results and declared types that end with a function type with several results;
  a last parameter `...func(...)`, of which `first_out` says what the code sees)
  with two independent readings:
  tokens as written, and nodes expected after parsing.  Each declaration is `complete`
  and begins a scope (C60), is spelled (C74), and by induction on its syntax falls under
  the kind theorems C54–C57; files by C60, getters by C44.
  `RepoFiles.v` and `RepoTests.v` show, by computation, that twenty-four Go files of /repo
  itself (everything except two test files with comments inside declarations) are sentences of this grammar, text for text.
* C76 – what is seen of an ast (`looks` in `SpecLooks.v`: kinds of scopes, texts and kinds
  of nodes) decides everything: scopes that look like a file of the grammar, however
  made, are saved as it, named by the getters and read back looking the same
  (`C76_saved`); parsing, selecting, adding (`C76_parsed/_select/_add`), one-call
  edits (`C76_set_text/_set_kind/_take_next/_insert/_new_scope/_retext/_rename`);
  every ast can be made from every other and from nothing by calls of the Node API
  (`C76_reach/_make/_generate/_transform`, by induction on tokens and scopes);
  ParseAst, Package, Save and reopening on such files (`C76_open/_package/_save_open`).

* C77 – `Iface.v` repeats ast.go's loops over interface values whose methods are
  arbitrary functions of the whole world (nodes, arrays, asts, files, own state) and may
  panic or hang; each loop is shown to be the sequence of visits of `SpecIface.v`
  (induction on the elements left), with the log of calls and file states; for values
  that answer like library scopes the results are those of `Ast.v`.  AppendScope,
  SetScope and Scope() only move interface values: C51 applies as it is.
* C78 – `Unrepeat.v` is AppendUnrepeatable over windows into shared backing arrays,
  for any element type and any growth of the runtime; `SpecUnrepeat.v` says joining
  (`joined`), cutting runs (`runs_cut`), what a slice shows and which cells are spare,
  without the model's functions. Cases of the call, then cell-by-cell reasoning about
  `append`; collecting by induction on the sequence. Not modelled: `==` panicking on
  interface values with uncomparable dynamic types.

Where the natural English claim is false of the code, the theorem proved is the
strongest true one we found and a `_refuted` theorem proves the negation of the
natural one (for a whole family of inputs where possible).

Nothing in the list is inexpressible in the model.

## 4. Trusted base

* Coq 8.16.1's kernel (and its `vm_compute`).
* Axioms: see section 5, which is updated from `Print Assumptions`.
* The reading of the Go code into Gallina: every definition cites its source
  lines.
* The behaviour ascribed to the Go language (range over strings, append, maps,
  pointer equality) in `GoStr.v`, `Ast.v`.

## 5. Print Assumptions

`Print Assumptions` answers "Closed under the global context" for every theorem
in the `P_*.v` files: no axiom, of the standard library or otherwise, is used.
(The checker lists seven constants `Coq.ssr.ssrunder.Under_rel.*` as library
axioms.  They are the opaque fields of a sealed module of Coq's own ssreflect
plugin library, loaded by std++; no theorem depends on them.)

## 6. Tests against wrong programs

`seeded/AUTO.jsonl` has the results of an automatic sweep (one small edit of a
definition each; where the build stopped).
`seeded/LOG.jsonl` has one line per seeded bug: the edited definition, old and
new text, the properties it makes false, the theorems that stop being provable,
and what was tightened because of it.  The bugs are applied to a scratch copy;
each proof that fails is replaced by `Admitted` and a theorem counts as failed
if it then depends on an admitted lemma, so "failed" also includes theorems that
merely use the same lemma; "claims_not_caught" lists properties with no failing
theorem, which is what led to tightening.
