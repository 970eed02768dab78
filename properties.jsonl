{"id": "C01", "title": "Link symmetry after any history", "statement": "After any sequence of Node API calls (NewNode, NewNodes, Copy, InsertPrev/Next, ReplacePrev/Next, TakePrev/Next, RemovePrev/Next, Isolate, CombinePrev/Next, SetKind, SetText), for any two nodes a and b, a.Next()==b exactly when b.Prev()==a, no node is its own neighbour, and every link leads to an existing node.", "quantifier": "all finite call histories with arbitrary (also nil, also identical) arguments", "why_tests_cant": "the claim ranges over every history of calls on every reachable linking of nodes; tests try a handful of five-node lists", "anchors": ["node.go:InsertPrev", "node.go:InsertNext", "node.go:ReplacePrev", "node.go:ReplaceNext", "node.go:TakePrev", "node.go:TakeNext", "node.go:RemovePrev", "node.go:RemoveNext", "node.go:Isolate", "node.go:setPrev", "node.go:setNext"]}
{"id": "C02", "title": "InsertNext / InsertPrev splice exactly one node", "statement": "Inserting a node of one chain after (before) a node of another chain puts exactly that node there, splits the donor chain into the part before and the part after the node, returns the donor's old neighbours, and changes no other chain. Inserting a node that is already that neighbour, or the node itself, changes nothing and returns (nil,nil).", "quantifier": "all chains, all positions, all heaps around them", "why_tests_cant": "the claim ranges over every history of calls on every reachable linking of nodes; tests try a handful of five-node lists", "anchors": ["node.go:InsertPrev", "node.go:InsertNext"]}
{"id": "C03", "title": "ReplaceNext / ReplacePrev splice a tail (head)", "statement": "n.ReplaceNext(nn), with nn on another chain, makes the chain of everything up to n followed by nn and everything after nn; the part before nn and the part after n become separate chains whose boundary nodes are the two results. ReplacePrev is the mirror image.", "quantifier": "all chains, all positions", "why_tests_cant": "the claim ranges over every history of calls on every reachable linking of nodes; tests try a handful of five-node lists", "anchors": ["node.go:ReplacePrev", "node.go:ReplaceNext"]}
{"id": "C04", "title": "TakeNext / TakePrev remove exactly one neighbour", "statement": "n.TakeNext() returns the next node fully detached and joins the rest; nothing else changes; with no next node it returns nil and changes nothing. TakePrev is the mirror image.", "quantifier": "all chains, all positions", "why_tests_cant": "the claim ranges over every history of calls on every reachable linking of nodes; tests try a handful of five-node lists", "anchors": ["node.go:TakePrev", "node.go:TakeNext"]}
{"id": "C05", "title": "RemoveNext / RemovePrev cut a chain in two", "statement": "n.RemoveNext() returns the old next node, which now heads its own chain with everything after it, and n ends its own chain. RemovePrev is the mirror image. No node is lost.", "quantifier": "all chains, all positions", "why_tests_cant": "the claim ranges over every history of calls on every reachable linking of nodes; tests try a handful of five-node lists", "anchors": ["node.go:RemovePrev", "node.go:RemoveNext"]}
{"id": "C06", "title": "Isolate detaches one node and cuts the chain there", "statement": "n.Isolate() leaves n alone and splits its chain into the part before n and the part after n (they are not joined).", "quantifier": "all chains, all positions", "why_tests_cant": "the claim ranges over every history of calls on every reachable linking of nodes; tests try a handful of five-node lists", "anchors": ["node.go:Isolate"]}
{"id": "C07", "title": "Link operations never touch payloads or unrelated nodes", "statement": "Insert*, Replace*, Take*, Remove* and Isolate never change the line, kind or text of any node, never create or destroy a node, and leave both links of every node that is neither an argument nor a neighbour of an argument (for Take*: of the taken node) unchanged.", "quantifier": "all heaps, well formed or not, all arguments", "why_tests_cant": "the claim ranges over every history of calls on every reachable linking of nodes; tests try a handful of five-node lists", "anchors": ["node.go:setPrev", "node.go:setNext"]}
{"id": "C08", "title": "Acyclicity and the one way to lose it", "statement": "Starting from acyclic links, Insert*, Take*, Remove*, Isolate and Combine* keep the links acyclic for any arguments; n.ReplaceNext(nn) keeps them acyclic unless nn is strictly before n on the same chain (mirror: ReplacePrev unless strictly after), and in that case a cycle does arise.", "quantifier": "all acyclic heaps, all arguments, all histories", "why_tests_cant": "the claim ranges over every history of calls on every reachable linking of nodes; tests try a handful of five-node lists", "anchors": ["node.go:ReplacePrev", "node.go:ReplaceNext", "node.go:InsertNext"]}
{"id": "C09", "title": "Iteration visits the chain in order and stops where told", "statement": "IterNext (IterPrev) calls the callback on the node and all its successors (predecessors), in order, each once, up to and including the first one for which it returns false, which is the result; nil if there is none. First/Last return the two ends of the chain. On a cyclic chain an always-true iteration never ends.", "quantifier": "all chains, all callbacks", "why_tests_cant": "the claim ranges over every history of calls on every reachable linking of nodes; tests try a handful of five-node lists", "anchors": ["node.go:loop", "node.go:IterNext", "node.go:IterPrev", "node.go:First", "node.go:Last"]}
{"id": "C10", "title": "Copy(true) is an isomorphic fresh chain", "statement": "n.Copy(true) returns a node in a chain of newly created nodes with the same lines, kinds and texts in the same order and at the same position as n has in its own chain; the original chain and everything else is unchanged. n.Copy() returns one detached new node with the same payload. Copy of nil is nil.", "quantifier": "all chains, all positions", "why_tests_cant": "the claim ranges over every history of calls on every reachable linking of nodes; tests try a handful of five-node lists", "anchors": ["node.go:Copy", "node.go:deepCopy"]}
{"id": "C11", "title": "A deep copy is independent of its original for ever", "statement": "After c := n.Copy(true), no sequence of API calls whose node arguments are reachable from the copy changes any link or payload of a node of the original, and vice versa.", "quantifier": "all chains and all subsequent call histories", "why_tests_cant": "the claim ranges over every history of calls on every reachable linking of nodes; tests try a handful of five-node lists", "anchors": ["node.go:Copy", "node.go:deepCopy"]}
{"id": "C12", "title": "CombineNext / CombinePrev concatenate in order and detach the absorbed nodes", "statement": "n.CombineNext(k, nns...) sets n's kind to k and its text to n's text followed by the texts of the non-nil nns different from n in order (CombinePrev: in reverse order, before n's text); every absorbed node ends up detached; n's line is unchanged. With a nil receiver the first argument takes its place (and keeps its kind).", "quantifier": "all receivers, all argument lists including nil and repeated nodes", "why_tests_cant": "the claim ranges over every history of calls on every reachable linking of nodes; tests try a handful of five-node lists", "anchors": ["node.go:CombinePrev", "node.go:CombineNext"]}
{"id": "C13", "title": "Nil receivers and arguments are safe", "statement": "A Node method call panics exactly when it is CombinePrev or CombineNext on a nil receiver with a nil first argument (so the natural claim 'no Node method panics on nil' is false, and is refuted by a concrete call); every other call with nil receivers or arguments returns normally, and a call whose receiver and arguments are all nil changes nothing and returns only nil.", "quantifier": "all methods, all heaps, all argument lists", "why_tests_cant": "the claim ranges over every history of calls on every reachable linking of nodes; tests try a handful of five-node lists", "anchors": ["node.go:TestNilNodeMethod", "node.go:CombineNext"]}
{"id": "C14", "title": "NewNodes builds the chain it is given", "statement": "NewNodes(line, texts...) returns the head of a fresh chain holding exactly the given texts in order, each classified by kind.New, nil for no texts; and the line of each node is line plus the number of newlines in all earlier texts except the first. (So the natural claim that it counts all earlier texts holds when the first text has no newline and is refuted in general.)", "quantifier": "all text lists, all start lines", "why_tests_cant": "the claim ranges over every history of calls on every reachable linking of nodes; tests try a handful of five-node lists", "anchors": ["node.go:NewNode", "node.go:NewNodes"]}
{"id": "C15", "title": "kind.New classifies every byte string by a fixed priority", "statement": "kind.New(s) is None exactly for the empty string; the fixed-text kind for the 22 reserved texts; Number exactly for non-empty all-digit strings; Separator only for the carriage return; String for anything else starting with a double quote or back quote; Keyword and Basic for the remaining keywords and basic types; Symbol for other strings made only of operator bytes; Raw otherwise.", "quantifier": "all byte strings including invalid UTF-8", "why_tests_cant": "the claim ranges over every byte string; tests tokenise a few hand-written snippets", "anchors": ["kind/kind.go:New", "charset/charset.go"]}
{"id": "C16", "title": "Byte tests under 'range string' see every byte", "statement": "The digit and operator tests of kind.New range over runes but index bytes; for every byte string, valid UTF-8 or not, they accept exactly when every byte is a digit (operator byte).", "quantifier": "all byte strings including invalid UTF-8", "why_tests_cant": "the claim ranges over every byte string; tests tokenise a few hand-written snippets", "anchors": ["kind/kind.go:New"]}
{"id": "C17", "title": "Bracket kinds pair up", "statement": "GetClose is defined exactly on the six bracket kinds, is an involution without fixed points, and pairs each opener with the closer of the same shape.", "quantifier": "all kinds, also user-made ones", "why_tests_cant": "kinds are an open type ([2]string), so the set of inputs is infinite", "anchors": ["kind/kind.go:GetClose"]}
{"id": "C18", "title": "Kinds with a fixed text are recovered from it", "statement": "For 22 of the 24 predeclared kinds with a non-empty fixed text, all but Pointer and Address, kind.New of that text is that kind; kind.New never returns Pointer or Address for any text, which refutes the claim for all 24. Different kinds have different fixed texts.", "quantifier": "all predeclared kinds; for the negative part all strings", "why_tests_cant": "the claim ranges over every byte string; tests tokenise a few hand-written snippets", "anchors": ["kind/kind.go:Pointer", "kind/kind.go:Address", "kind/kind.go:New"]}
{"id": "C19", "title": "Scope keyword detection is prefix detection, independent of the order of tests", "statement": "A first-of-line token starts a scope exactly when it starts with one of package, //, /*, import, var, const, type, func, and the kind is that of the unique such prefix, whatever the order of the tests; in particular any identifier such as typeLoop or variable starts a scope too.", "quantifier": "all byte strings, all orders of the table", "why_tests_cant": "the claim ranges over every byte string; tests tokenise a few hand-written snippets", "anchors": ["scope.go:newScopeKind", "scope.go:isScopeKind", "scope/scope_kind.go"]}
{"id": "C20", "title": "HasPrefix / HasSuffix decide prefixes and suffixes", "statement": "HasSuffix(s,t) is true exactly when s ends with t. HasPrefix(s,t) is true whenever s starts with t, and for every ASCII t only then, which covers every use in the library; in general it is true exactly when s is at least as long as t and agrees with t at the rune starts of t, so 'only then' is refuted for multi-byte prefixes.", "quantifier": "all byte strings", "why_tests_cant": "the claim ranges over every byte string; tests tokenise a few hand-written snippets", "anchors": ["helper/helper.go:HasPrefix", "helper/helper.go:HasSuffix"]}
{"id": "C21", "title": "TidyText output is printable on one line", "statement": "TidyText(s) contains no newline, carriage return or tab, is the concatenation of what it shows for each byte (all other bytes are kept as they are), and so Node.Description is a single line whenever the kind's name is, which holds for every kind kind.New returns.", "quantifier": "all byte strings", "why_tests_cant": "the claim ranges over every byte string; tests tokenise a few hand-written snippets", "anchors": ["helper/helper.go:TidyText", "node.go:Description"]}
{"id": "C22", "title": "AppendUnrepeatable never introduces an adjacent repeat at the seam", "statement": "AppendUnrepeatable(slice, elems...) returns slice followed by elems, without elems' first element if it equals slice's last; so if neither argument has two equal neighbours, the result has none either.", "quantifier": "all slices of any comparable type", "why_tests_cant": "all lengths and contents", "anchors": ["helper/helper.go:AppendUnrepeatable"]}
{"id": "C23", "title": "Character sets contain exactly what they were built from", "statement": "charset.New(xs...).Contain(x) holds exactly when x is among xs, likewise for NewSlice, and a nil set contains nothing.", "quantifier": "all element lists and keys", "why_tests_cant": "all lengths and contents", "anchors": ["charset/charset.go:New", "charset/charset.go:NewSlice", "charset/charset.go:Contain"]}
{"id": "C24", "title": "Trie lookups after any history of insertions", "statement": "After any sequence of AddText calls, FindText(s) succeeds exactly when s is empty or some added text starts with s (rune by rune, first bytes only), and the value it returns is decided by the last AddText(k,v) such that k starts with s (for empty s: such that k is empty): v if k and s agree, the zero value otherwise, and also the zero value if there is none.", "quantifier": "all histories of insertions, all queries", "why_tests_cant": "histories are unbounded; tests add two texts", "anchors": ["trie.go:AddText", "trie.go:Insert", "trie.go:FindText", "trie.go:Next"]}
{"id": "C25", "title": "Adding a longer text keeps the values of its prefixes", "statement": "A text just added is found with its value; adding another text keeps the result of every lookup except of prefixes of that text; adding a longer text resets the value of its non-empty proper prefixes to zero, so the natural claim that it keeps them is refuted.", "quantifier": "all tries, all texts", "why_tests_cant": "histories are unbounded", "anchors": ["trie.go:Insert", "trie.go:AddText"]}
{"id": "C26", "title": "newTrie does not depend on map iteration order", "statement": "Two tries built from the same entries in any two orders agree on every lookup, provided no key is a prefix of another; the claim without that proviso is refuted.", "quantifier": "all maps and all iteration orders", "why_tests_cant": "Go randomises map order, a test sees one order", "anchors": ["trie.go:newTrie"]}
{"id": "C27", "title": "Forward and reverse, text and byte lookups agree", "statement": "FindByte([]byte(s)) = FindText(s) and FindByteReversely/FindTextReversely look up the reversed bytes, for every ASCII text s; FindTextReversely and FindByteReversely agree on every text. (FindText skips continuation bytes, so the claim for all texts is refuted.)", "quantifier": "all tries, all texts", "why_tests_cant": "the claim ranges over every byte string; tests tokenise a few hand-written snippets", "anchors": ["trie.go:FindByte", "trie.go:FindText", "trie.go:FindTextReversely", "trie.go:FindByteReversely"]}
{"id": "C28", "title": "Tokenising is lossless", "statement": "For every input, the texts of the nodes produced by the tokeniser, concatenated in chain order, are the input byte for byte; no node has an empty text.", "quantifier": "all byte strings (also unbalanced, unterminated, not Go at all)", "why_tests_cant": "the claim ranges over every byte string; tests tokenise a few hand-written snippets", "anchors": ["extractor.go:extract", "extractor.go:Run"]}
{"id": "C29", "title": "Tokenising always ends, without panic, in a well-formed chain", "statement": "For every input the tokeniser terminates without panic or error and returns nil for the empty input and otherwise the first node of a doubly linked chain ending at the last token.", "quantifier": "all byte strings, all nesting depths", "why_tests_cant": "the claim ranges over every byte string; tests tokenise a few hand-written snippets", "anchors": ["extractor.go:Run", "extractor.go:extract"]}
{"id": "C30", "title": "Token boundaries", "statement": "The token sequence is the one given by a flat scanner: a string, raw string or comment is one token from its opener to its closer (or the end of input; a line comment excludes its newline), every separator byte outside those is a token of its own, and every maximal run of other bytes is one token; bracket nesting plays no role. Kinds are Comment/String for closed comments and strings and kind.New of the text otherwise.", "quantifier": "all byte strings", "why_tests_cant": "the claim ranges over every byte string; tests tokenise a few hand-written snippets", "anchors": ["extractor.go:Run", "extractor.go:_commonDeeperExtract", "charset/charset.go:SeparatorCharset"]}
{"id": "C31", "title": "Tokenising does not depend on map iteration order", "statement": "The opener table is a Go map searched in random order; the token sequence is the same for every order, at every position.", "quantifier": "all byte strings, all (per-lookup) iteration orders", "why_tests_cant": "Go randomises map order, a test sees a few orders", "anchors": ["extractor.go:PrefixFit", "extractor.go:_commonDeeperExtract"]}
{"id": "C32", "title": "Node line numbers", "statement": "Every token's Line() is the number of newlines before its first byte, except: a token cut off by the end of input reports the line the input ends on, and ( and { report the line of the last word at the same bracket depth, or of the enclosing bracket's text if there is none since it (so never too large, and right whenever a word precedes the bracket on its line with no other bracket between). The natural claim that every line is exact is refuted.", "quantifier": "all byte strings, all tokens", "why_tests_cant": "the claim ranges over every byte string; tests tokenise a few hand-written snippets", "anchors": ["extractor.go:Run", "extractor.go:pushNode"]}
{"id": "C33", "title": "String and comment tokens end where Go says they end", "statement": "A token starting at a Go interpreted string literal is exactly that literal unless the literal ends in an escaped backslash (then it never is, if text follows); one starting at a block comment is exactly that comment unless its body starts with / (then it never is). Raw strings end at the next back quote and line comments before the next newline. The natural claim without the two exceptions, and that quotes in rune literals open no string, is refuted.", "quantifier": "all byte strings", "why_tests_cant": "the claim ranges over every byte string; tests tokenise a few hand-written snippets", "anchors": ["extractor.go:_stringExtractor", "extractor.go:_innerCommentExtractor", "extractor.go:_multilineStringExtractor", "extractor.go:_commentExtractor"]}
{"id": "C34", "title": "Scopes partition the token chain", "statement": "The scopes returned by ParseScope split the tokens of the text, from the first scope start to the end, into consecutive non-empty groups, one per scope, in order; the chain of each scope starts at the first token of its group, is a separate well-formed chain (its first node has no Prev, its last no Next), consists of nodes of its group in order, and of all of them unless it is a func or type scope (whose type expressions are merged into single nodes).", "quantifier": "all byte strings, all start lines", "why_tests_cant": "the claim ranges over every byte string; tests tokenise a few hand-written snippets", "anchors": ["scope.go:ParseScope", "scope.go:tryAppendScope"]}
{"id": "C35", "title": "Every scope starts at a scope keyword and reports its line", "statement": "A token starts a scope exactly when its Line() differs from that of the token before it (startLine-1 for the first token) and its text begins with a scope keyword (package, //, /*, import, var, const, type, func); scope.Kind() is that keyword's kind, which is unique, and scope.Line() is the token's Line() plus one. The natural claim that the keyword is a whole word at top level is refuted (typeLoop: inside a function starts a type scope; a package clause after a comment on its line is missed).", "quantifier": "all byte strings, all start lines", "why_tests_cant": "the claim ranges over every byte string; tests tokenise a few hand-written snippets", "anchors": ["scope.go:ParseScope", "scope.go:newScopeKind"]}
{"id": "C36", "title": "startLine does not matter, except 1", "statement": "ParseScope(startLine, text) gives the same result for every startLine other than 1 (and, for a text that is one unterminated string or comment, other than one past the number of its newlines); node lines are never shifted. With startLine 1 exactly the scope that starts at the first token, if any, is missing. The natural claim that the start line never matters is refuted.", "quantifier": "all start lines, all texts", "why_tests_cant": "the claim ranges over every byte string; tests tokenise a few hand-written snippets", "anchors": ["scope.go:ParseScope"]}
{"id": "C37", "title": "ParseScope always ends without panic", "statement": "For every input and start line, ParseScope terminates, does not panic and returns no error, including all kind refinement of func and type declarations, and changes no node that existed before.", "quantifier": "all byte strings, all start lines, all heaps", "why_tests_cant": "the claim ranges over every declaration text (any nesting, any comments); tests look at four snippets", "anchors": ["scope.go:ParseScope", "kind_resetter_all.go:resetKind"]}
{"id": "C38", "title": "Kind refinement keeps chains well formed", "statement": "Refining a scope ends without panic and leaves it a well-formed doubly linked chain starting at the same node, made of some of the original nodes in the original order; it changes no line number, changes a kind only to one of the six refined kinds (function, type, parameter and receiver names and types), and leaves every node outside the scope untouched.", "quantifier": "all chains whatsoever, all kinds and texts", "why_tests_cant": "the claim ranges over every declaration text (any nesting, any comments); tests look at four snippets", "anchors": ["kind_resetter_func.go", "kind_resetter_type.go", "kind_resetter_parenthesis.go", "kind_resetter_all.go:paramResetter"]}
{"id": "C39", "title": "Kind refinement preserves the source text", "statement": "The scopes of a parsed file keep the text of their tokens: the concatenated text of a scope's nodes is the text of the tokens it was made from, whenever (a) it is neither a function nor a type, (b) it is a function and every comment in it is at its end or directly before a newline, a space or an opening brace (whatever else it contains), (c) it is a group of types, type ( ... ), (d) it is a type without parentheses and func whose comments are at line ends, or (e) it is a type, possibly generic, declared as a struct, interface or func with comments as in (b), and what follows its closing brace (for func: its line) is as in (d). The natural claim for every declaration is refuted: type X *func(a int) gets the text type X *func(a int) int), and comments inside a return type or between types are dropped.", "quantifier": "all chains whatsoever", "why_tests_cant": "the claim ranges over every declaration text (any nesting, any comments); tests look at four snippets", "anchors": ["kind_resetter_func.go:handleSingleReturnType", "kind_resetter_all.go:paramResetter", "node.go:CombineNext"]}
{"id": "C40", "title": "Only func and type scopes are refined", "statement": "In package, import, var, const and comment scopes, and in any scope whose first token is not exactly func or type, the chain is that group of tokens and every node keeps its line, kind and text.", "quantifier": "all byte strings", "why_tests_cant": "the claim ranges over every declaration text (any nesting, any comments); tests look at four snippets", "anchors": ["kind_resetter_all.go:resetKind"]}
{"id": "C41", "title": "GetFuncName finds the function's name", "statement": "For a text starting with func, any spaces and tabs and a word that is no keyword or built-in type name, whatever follows the word (parameters, type parameters, broken syntax), the first scope is a func scope, GetFuncName is (word,true), GetMethodReceiver's flag is false and GetMethodName is (\"\",false).", "quantifier": "all names, all continuations of the text, all start lines but 1", "why_tests_cant": "the claim ranges over every declaration text (any nesting, any comments); tests look at four snippets", "anchors": ["scope.go:GetFuncName", "scope.go:GetMethodReceiver", "kind_resetter_func.go"]}
{"id": "C42", "title": "GetMethodReceiver / GetMethodName find receiver and name", "statement": "For a text starting with a method header func (r T) Name or func (T) Name of plain words, whatever follows unless the tokens are those of a function literal called at once ({...} directly followed by a parenthesis), the first scope is a func scope, GetMethodReceiver is (T,true) and GetMethodName and GetFuncName are (Name,true). The natural claim for every receiver is refuted (an unnamed generic receiver is not found).", "quantifier": "all receiver names and types, all method names, all continuations", "why_tests_cant": "the claim ranges over every declaration text (any nesting, any comments); tests look at four snippets", "anchors": ["scope.go:GetMethodReceiver", "scope.go:GetMethodName", "kind_resetter_func.go:Run"]}
{"id": "C43", "title": "GetTypeName / GetStructName / GetInterfaceName find the declared name", "statement": "For a text starting with type Name, with any spaces and tabs before Name, whatever follows, the first scope is a type scope and GetTypeName is (Name,true); if it starts with type Name struct (type Name interface) then GetStructName (GetInterfaceName) is (Name,true) too.", "quantifier": "all names, all continuations", "why_tests_cant": "the claim ranges over every declaration text (any nesting, any comments); tests look at four snippets", "anchors": ["scope.go:GetTypeName", "scope.go:GetStructName", "scope.go:GetInterfaceName", "kind_resetter_type.go:typeResetter"]}
{"id": "C44", "title": "Scope getters return exactly the first matching node", "statement": "GetFuncName, GetMethodName and GetMethodReceiver return (\"\",false) for every scope that is not a func scope, GetTypeName, GetStructName and GetInterfaceName for every scope that is not a type scope, whatever the nodes. On the right kind of scope they return the text of the first node of the kind looked for with true, and if there is none false (with the text of the last node, except for GetFuncName); GetMethodName needs a receiver; the flag of GetStructName (GetInterfaceName) says whether the keyword occurs anywhere in the scope. The natural claims that GetStructName is true only for struct declarations and that a failed lookup returns an empty string are refuted.", "quantifier": "all scopes, all chains", "why_tests_cant": "the claim ranges over every declaration text (any nesting, any comments); tests look at four snippets", "anchors": ["scope.go:GetFuncName", "scope.go:GetMethodReceiver", "scope.go:GetTypeName", "scope.go:GetStructName"]}
{"id": "C45", "title": "Package finds the package name", "statement": "NewAst fails with ErrNoPackage exactly when no scope is a package scope; otherwise Package() is the text of the first Raw node after a package keyword in the first package scope, empty if there is none; NewAst keeps the caller's slice and has empty paths. For text beginning with package, any spaces and tabs and a word that is no keyword or built-in type name, whatever follows the word, parsing yields first a package scope naming that word. The natural claim for every package clause is refuted (package byte has the name \"\"; a clause after a block comment on its line is not found).", "quantifier": "all scope lists; all names and continuations", "why_tests_cant": "the claim ranges over every byte string; tests tokenise a few hand-written snippets", "anchors": ["ast.go:findPackageName", "ast.go:NewAst", "ast.go:Package"]}
{"id": "C46", "title": "Save writes the concatenation of all scopes", "statement": "ast.Save(f) writes format.Source of the concatenated texts of the scopes' chains in order, or that text itself if formatting fails (with autoImport, imports.Process instead), to f with .go appended if missing, and touches no other file; it succeeds whenever the text is not empty and the system calls succeed, and when it returns nil the file holds exactly that. For empty text it fails and touches nothing.", "quantifier": "all asts, paths, file systems, formatter behaviours", "why_tests_cant": "formatter and file system behaviour is arbitrary; tests run one file", "anchors": ["ast.go:Save", "helper/helper.go:SaveFile"]}
{"id": "C47", "title": "Save reports failures and is atomic under a crash", "statement": "If Save returns nil the file has the new content. At every point of the call (so whenever it fails or the process dies) the file has its old content or a prefix of the new one, and no other file's content ever changes; if directory and file can be made there is always a moment when the file is empty. The natural claim that a crash leaves the old or the new content is refuted.", "quantifier": "all crash points, all file systems", "why_tests_cant": "a test cannot crash between system calls", "anchors": ["helper/helper.go:SaveFile"]}
{"id": "C48", "title": "ParseAst reads the right file and keeps the path", "statement": "ParseAst(f) fails with ErrNotExist exactly when the file f (with .go appended if missing) cannot be read and the system says it does not exist, with another error if it cannot be opened or formatted, with ErrNoPackage if its formatted text has no package scope, and otherwise returns an ast with the scopes of the formatted text in order; File() is f unchanged and Dir, Name and Ext are computed from f.", "quantifier": "all file systems and paths", "why_tests_cant": "file system states are unbounded", "anchors": ["ast.go:ParseAst", "helper/helper.go:ReadFile"]}
{"id": "C49", "title": "Parse then Save reproduces the formatted source", "statement": "What an unmodified parsed text would be saved as is the text from its first scope on, if all its scopes are of the sorts for which text is kept. Reading a file that begins with a scope and saving it under any name writes the (formatted) text that was read, formatted again, and that text itself if formatting does not change it; no other file changes. In particular this holds for every file that begins with package and has no comments and no type declarations, whatever functions it has. Refuted without these conditions.", "quantifier": "all sources and formatter behaviours", "why_tests_cant": "the claim ranges over every declaration text (any nesting, any comments); tests look at four snippets", "anchors": ["ast.go:ParseAst", "ast.go:Save"]}
{"id": "C50", "title": "Ast.Copy is deep", "statement": "Copy of an ast has the same paths and scopes with equal lines, kinds and node payloads, all its nodes are new, and the original is unchanged.", "quantifier": "all asts over all heaps of acyclic chains", "why_tests_cant": "the claim ranges over every history of calls on every reachable linking of nodes; tests try a handful of five-node lists", "anchors": ["ast.go:Copy", "scope.go:Copy"]}
{"id": "C51", "title": "Asts do not share scope lists", "statement": "AppendScope adds the given scopes at the end and keeps the paths; it changes no slice that does not overlap the cells written (in particular none, if the appended-to slice has no spare capacity), and an ast and its Copy never affect each other this way. The natural claim that appending to one ast never changes another is refuted: SetScope keeps the caller's slice, so two asts can append into the same spare capacity.", "quantifier": "all slices, lengths and capacities", "why_tests_cant": "capacities depend on allocation history", "anchors": ["ast.go:SetScope", "ast.go:AppendScope", "ast.go:Scope"]}
{"id": "C52", "title": "Descriptions report the right line", "statement": "Every description starts with a decimal number and a space, which determines one number. Node.Description shows Line()+1 (node lines are zero-based) for every node. Scope.Description shows Line()+1 although Scope.Line() is one-based already, so the natural claim that it shows the scope's line is refuted for every scope.", "quantifier": "all nodes and scopes", "why_tests_cant": "the claim ranges over every byte string; tests tokenise a few hand-written snippets", "anchors": ["node.go:Description", "scope.go:Description", "scope.go:Line"]}
{"id": "C53", "title": "IterScope and Ast.Description go through the scopes in order", "statement": "IterScope calls the callback on the ast's scopes in order, each once, up to and including the first for which it returns false. Ast.Description is, scope by scope, the scope's description followed by those of its nodes, in order.", "quantifier": "all asts and callbacks", "why_tests_cant": "all lengths, contents and callbacks", "anchors": ["ast.go:IterScope", "ast.go:Description"]}
{"id": "C54", "title": "Functions and methods: what each token becomes", "statement": "For every scope that begins with a function or method declaration (func, optional receiver, a name, optional type parameters, parameters, results, then the end of the line or a body, perhaps with a comment after it) the nodes after parsing are known exactly, text and kind: the name is FuncName; identifiers of the receiver are MethodReceiverName then MethodReceiverType; in each parameter and in each result list the first identifier is ParamName and the others ParamType, except that a parameter of a single word is a type; the parameters of function-typed parameters likewise; each word of a result outside parentheses, up to a space or a brace, becomes one ParamType node with the concatenated text; the parameters of a result func(...) are parameters; of a last parameter ...func(...), called variadic, the word is a type (a name if it stands alone), the parameters are marked like others except that the first has no name (x in ...func(x T) is a type), and several results are marked as a list, and the results of the function itself are found after it unless the parameter is followed by a comma and the end of the line; all else - type parameters, brackets, what stands in braces, basic types, the body - keeps text and kind, to the end of the scope. Refuted for all declarations: a single type with two type arguments is marked as a name, and what follows a function-typed parameter with several results is garbled (T) becomes one node T) ).", "quantifier": "all texts, start lines, scopes, signatures of any length and nesting", "why_tests_cant": "the claim ranges over every declaration text (any nesting, any comments); tests look at four snippets", "anchors": ["kind_resetter_func.go:funcResetter.Run", "kind_resetter_func.go:handleGeneralFunc", "kind_resetter_func.go:handleSingleReturnType", "kind_resetter_parenthesis.go:handleParenthesisParam", "scope.go:ParseScope"]}
{"id": "C55", "title": "Structs: what each token of the fields becomes", "statement": "For every scope that is a struct declaration (type, a name, optional type parameters, struct, a body in braces whose rows each end with the line) the nodes after parsing are known exactly, text and kind: the declared name is TypeName; of each row of the body the first n identifiers are ParamName and the others ParamType, where n is one more than the number of commas in the leading part of the row (names, white space, commas), one if there is no comma but a space after an identifier, and else none; identifiers anywhere in a type, also in square brackets, are ParamType; the parameters of a function-typed field are ParamName and ParamType as in functions; everything else keeps text and kind. Refuted without these conditions: fields on one line all become types, and an embedded field followed by a comment becomes a name.", "quantifier": "all texts, start lines, structs with any number of fields", "why_tests_cant": "the claim ranges over every declaration text (any nesting, any comments); tests look at four snippets", "anchors": ["kind_resetter_type.go:structResetter", "kind_resetter_type.go:structRowResetter", "kind_resetter_type.go:getRowNameCount", "scope.go:ParseScope"]}
{"id": "C56", "title": "Interfaces: what each token of the methods becomes", "statement": "For every scope that is an interface declaration whose body has one method or embedded type per line, perhaps with comments, the nodes after parsing are known exactly: method names are FuncName, their parameters and results are as in functions (each word of a single result becomes one ParamType node), the first identifier of a line without parentheses is TypeName, and everything else keeps text and kind. Refuted without these conditions: of several methods on one line only the first name is found, and in A | B only A is marked.", "quantifier": "all texts, start lines, interfaces with any number of methods", "why_tests_cant": "the claim ranges over every declaration text (any nesting, any comments); tests look at four snippets", "anchors": ["kind_resetter_type.go:interfaceResetter", "kind_resetter_type.go:isThisLineFunction", "kind_resetter_func.go:handleGeneralFunc", "scope.go:ParseScope"]}
{"id": "C57", "title": "Other type declarations: what each token becomes", "statement": "For every type declaration made of predeclared types, brackets, structs, interfaces, a named type up to a comment or the end of the line (becomes one ParamType node with the text of all its tokens, the space before the comment included), and function types (the first identifier outside brackets among the results is marked FuncName, what comes after the next space is treated like the result of a function, result lists in parentheses like parameters), with or without a comment at the end of the line, the nodes after parsing are known exactly; a declaration group type ( ... ) is left as it is, no name in it is marked. Refuted: that the single named result of a function type is marked as a type.", "quantifier": "all texts, start lines, type expressions of any length", "why_tests_cant": "the claim ranges over every declaration text (any nesting, any comments); tests look at four snippets", "anchors": ["kind_resetter_type.go:typeResetter", "kind_resetter_all.go:paramResetter", "kind_resetter_func.go:funcResetter.Run", "scope.go:ParseScope"]}
{"id": "C58", "title": "Scope kinds agree with the tokens they start with", "statement": "The name (String) and the node kind (ToKind) of every scope kind are those of the table; any other value has the empty name and kind None, and names are unique. For every parsed scope, ToKind of its kind is the kind its first token has after tokenising exactly if that token is one of the keywords package, import, var, const, type, func, or a comment; it differs for names that begin with a keyword and for a comment cut off by the end of the text.", "quantifier": "all scope kinds, texts and start lines", "why_tests_cant": "the claim ranges over every byte string; tests tokenise a few hand-written snippets", "anchors": ["scope/scope_kind.go:String", "scope/scope_kind.go:ToKind", "scope.go:newScopeKind", "scope.go:ParseScope"]}
{"id": "C59", "title": "A parse depends on the text alone, each scope on its own tokens alone", "statement": "What ParseScope returns - line and kind of every scope, and line, text and kind of every node, in order - depends only on the start line and the text: not on what was parsed, built or modified before, nor on the order in which Go enumerates its maps. Moreover two scopes cut out with the same texts and kinds, in whatever files, at whatever positions, are the same after refining: same kind, same nodes from the same positions, each with the line it was cut out with.", "quantifier": "all texts, start lines, earlier heaps, map orders, and pairs of scopes of any two parses", "why_tests_cant": "all heaps, orders and contexts", "anchors": ["scope.go:ParseScope", "kind_resetter_all.go", "kind_resetter_func.go", "kind_resetter_type.go", "kind_resetter_parenthesis.go", "extractor.go:extract"]}
{"id": "C60", "title": "A file can be parsed declaration by declaration", "statement": "If A ends with a line end outside strings and comments and all its ( and { are closed, and B begins with a scope keyword, then parsing A followed by B gives the scopes of A followed by those of B with all lines moved down by the number of lines of A. Hence a file made of such declarations parses to the parses of the declarations one below the other, and editing one declaration changes nothing above it and only line numbers below it. Refuted without the conditions: a text that does not end its line, or does not begin a scope, runs into its neighbour.", "quantifier": "all texts, all lists of declarations, all start lines not above 0", "why_tests_cant": "all files and all edits", "anchors": ["scope.go:ParseScope", "extractor.go:extract"]}
{"id": "C61", "title": "Iterating while changing the chain", "statement": "IterNext (IterPrev) visits exactly the nodes of the chain, in order, up to the first for which the callback returns false, whatever the callback does, as long as it leaves the way forward from the current node as it is. In particular a callback that takes out the previous node when it was unwanted removes exactly the unwanted nodes except the last: the others form one chain in order, every removed node is isolated, payloads and other chains are untouched; but if the first node is removed its holder is left with it alone. Detaching the current node from what follows ends the iteration (so isolating each node isolates only the first), and inserting a new node after each visited one never ends.", "quantifier": "all chains, callbacks, histories", "why_tests_cant": "all callbacks and chains; termination", "anchors": ["node.go:IterNext", "node.go:IterPrev", "node.go:loop", "node.go:TakePrev", "node.go:Isolate", "node.go:InsertNext", "exported/main_test.go"]}
{"id": "C62", "title": "Scopes are consecutive pieces of the source and report their place in it", "statement": "The source is some text before the first scope followed by one body per scope, in order; each body begins with the keyword of the scope's kind; Scope.Line() is the one-based line on which the body begins - except that, if all the rest of the file is a comment or string cut off by its end, it is the last line (and the scope is the last). The texts of the nodes of a scope that is no func or type scope concatenate to its body. Lines of scopes never decrease and lie between 1 and the number of lines.", "quantifier": "all texts, start lines, heaps, map orders", "why_tests_cant": "the claim ranges over every byte string; tests tokenise a few hand-written snippets", "anchors": ["scope.go:ParseScope", "scope.go:Line", "extractor.go:extract"]}
{"id": "C63", "title": "Goroutines that share no nodes do not interfere", "statement": "Several goroutines use the library at once, each on nodes of its own: what each does next - making, linking, copying, combining, changing, reading nodes, parsing texts - is any function of what it has seen so far. If no goroutine can get at a node of another by Next and Prev, and each, run alone, would not panic or hang, then whatever the interleaving none panics or hangs, each sees exactly what it sees alone, and they still share nothing afterwards; so the schedule is irrelevant to each. One call reads and changes only nodes its goroutine can get at, and new ones. Refuted when nodes are shared: nothing is locked.", "quantifier": "all schedules, numbers of goroutines, adaptive programs, heaps, map orders", "why_tests_cant": "all interleavings", "anchors": ["node.go", "scope.go:ParseScope", "extractor.go:extract", "kind_resetter_all.go"]}
{"id": "C64", "title": "Parsing allocates one node per token", "statement": "ParseScope allocates exactly as many nodes as the text has tokens, so at most one per byte; refining kinds, splitting into scopes and merging nodes allocate nothing.", "quantifier": "all texts, start lines, heaps, map orders", "why_tests_cant": "the claim ranges over every byte string; tests tokenise a few hand-written snippets", "anchors": ["scope.go:ParseScope", "extractor.go:extract", "node.go:NewNode"]}
{"id": "C65", "title": "Editing nodes edits the saved file", "statement": "If every scope of an ast is on a chain of its own (as after parsing), one call on a node of a scope - SetText, SetKind, InsertNext, InsertPrev, ReplaceNext, ReplacePrev, TakeNext, TakePrev, RemoveNext, RemovePrev, Isolate, CombineNext - changes what Save writes exactly as described: SetText exchanges that node's text, InsertNext adds the node's text after the receiver's, TakeNext drops one node's text, and so on; nothing of the other scopes changes. For a parsed text whose declarations keep their text, the saved text is the source with that edit made. Any sequence of such calls, on any scopes, and of calls that make new nodes leaves every scope on a chain of its own, and Save writes the result. Taking a node and inserting it elsewhere moves its text and nothing is lost. Not so without taking it: inserting a node that still is in another scope cuts off everything that followed it there; a node put before the scope's node is not saved; CombineNext drops what follows the merged nodes.", "quantifier": "all asts, heaps, scopes, positions of nodes; all parsed texts", "why_tests_cant": "the claim ranges over every history of calls on every reachable linking of nodes; tests try a handful of five-node lists", "anchors": ["node.go:SetText", "node.go:InsertNext", "node.go:InsertPrev", "node.go:ReplaceNext", "node.go:TakeNext", "node.go:RemoveNext", "node.go:Isolate", "node.go:CombineNext", "ast.go:Save", "scope.go:ParseScope"]}
{"id": "C66", "title": "The Node API is a game on rows of cards", "statement": "The nodes of a program can be seen as rows of cards without links: every node is in exactly one row, and its card shows line, text and kind. Every state without circular chains is such a board, and only one; Next, Prev, First, Last, Line, Text and Kind can be read off it. Every call of the Node API - all 16 operations that change anything, with any arguments, nil or not, from the same row or another - changes the board as its rule says and returns what the rule says, and conversely whatever a rule allows is what the call does; the only calls without a rule are those that panic and Replace calls that close a circle. Hence any sequence of other calls, from the beginning, is a game by the rules; Save writes the texts on the cards from each scope's node to the end of its row.", "quantifier": "all heaps, calls, arguments, histories", "why_tests_cant": "the claim ranges over every history of calls on every reachable linking of nodes; tests try a handful of five-node lists", "anchors": ["node.go:NewNode", "node.go:NewNodes", "node.go:Copy", "node.go:InsertNext", "node.go:InsertPrev", "node.go:ReplaceNext", "node.go:ReplacePrev", "node.go:TakeNext", "node.go:TakePrev", "node.go:RemoveNext", "node.go:RemovePrev", "node.go:Isolate", "node.go:CombineNext", "node.go:CombinePrev", "ast.go:Save"]}
{"id": "C67", "title": "The example program removes comments and nothing else", "statement": "The program of the test TestExample - parse a file, drop the scopes that are comments, take every comment out of the others while iterating, save - keeps exactly the scopes that are no comments, and of each exactly the nodes that are no comments (and the last node of a scope, even if it is a comment); the kept nodes stay in order on chains of their own, with text, kind and line as parsed; the saved file is the concatenation of their texts, formatted; no other file changes. Refuted as stated without this reading: a comment at the beginning of a line inside a function starts a scope of its own, and the rest of the function is removed with it.", "quantifier": "all files, file systems, formatters, heaps, map orders", "why_tests_cant": "the claim ranges over every byte string; tests tokenise a few hand-written snippets", "anchors": ["exported/main_test.go:TestExample", "node.go:IterNext", "node.go:TakePrev", "ast.go:IterScope", "ast.go:SetScope", "ast.go:Save", "ast.go:ParseAst"]}
{"id": "C68", "title": "Renaming a declaration renames it and nothing else", "statement": "In a file made of complete declarations that keep their text, for a declared function or type there is one scope whose GetFuncName (GetTypeName) is its name and a node in it such that SetText of a new identifier on that node makes GetFuncName (GetTypeName) return the new name, changes nothing else that is visible of any scope - lines, kinds, texts of all other nodes - and makes Save write exactly the file with that declaration renamed; parsing the saved file gives the new name at the same scope. Declarations keep their text in particular if all scopes in them do (C49).", "quantifier": "all declarations before and after, names, new names, rest of the declaration, heaps, map orders", "why_tests_cant": "all files and names; composition of parsing, editing, saving and parsing again", "anchors": ["node.go:SetText", "scope.go:GetFuncName", "scope.go:GetTypeName", "scope.go:ParseScope", "ast.go:Save"]}
{"id": "C69", "title": "Printing shows what is there and changes nothing", "statement": "Node.Print and Scope.Print write exactly one line (a node's kind name permitting; after parsing always). The program of the test TestUsecase prints, in order, exactly the scopes that are type declarations with an interface in them, each followed by all of its nodes in order. The text computed for debug output is that of the node and the nextCount nodes after it, tidied; it is computed in nextCount+1 steps even on a circular chain (unless nextCount is the largest uint, when the counter overflows).", "quantifier": "all heaps incl. circular ones, nodes, counts, parsed texts", "why_tests_cant": "the claim ranges over every byte string; tests tokenise a few hand-written snippets", "anchors": ["node.go:Print", "node.go:debugText", "scope.go:Print", "exported/main_test.go:TestUsecase"]}
{"id": "C70", "title": "The test helpers tell the truth about ==, nil and panics", "statement": "assert.Equal passes exactly if == holds, and NotEqual exactly if not, for all values in which there is no map, slice or function (structs, arrays, interfaces, pointers nested to any depth); in every case the two are opposite and panic together; a value without NaN is Equal to itself; whatever the two values, their order does not matter, and Equal passes exactly if == holds and there is no map, slice or function in them, so it is transitive. Nil passes exactly on nil and on nil pointers, maps, channels and slices, and NotNil is its opposite; Error and NoError look at the interface only; Panic and NoPanic call the function once and tell whether it panicked, and do not return if it ends the goroutine. Refuted beyond that: Equal panics on two maps, slices or functions of one type, even on a value and itself; Nil panics on arrays and finds a nil function not nil.", "quantifier": "all Go values of any type and depth, all functions", "why_tests_cant": "all values; nesting", "anchors": ["assert/assert.go:Equal", "assert/assert.go:NotEqual", "assert/assert.go:Nil", "assert/assert.go:NotNil", "assert/assert.go:isNil", "assert/assert.go:Error", "assert/assert.go:NoError", "assert/assert.go:Panic", "assert/assert.go:NoPanic", "assert/assert.go:Call"]}
{"id": "C71", "title": "A file can be put together from declarations of others", "statement": "Several files made of complete declarations that keep their text are parsed one after another in one program. Then each declaration has its scopes, and for every selection of declarations of any of the files, in any order and repeated at will, an ast with their scopes is saved as exactly the texts of the selected declarations one after another; parsing that file again gives scopes that look the same (kinds, texts and node kinds) as the selected ones.", "quantifier": "all numbers of files and declarations, selections, orders, heaps, map orders", "why_tests_cant": "all selections; composition of parsing, assembling, saving and parsing again", "anchors": ["ast.go:NewAst", "ast.go:SetScope", "ast.go:AppendScope", "ast.go:Save", "scope.go:ParseScope"]}
{"id": "C72", "title": "Names, strings and comments are opaque", "statement": "If words of a file are exchanged for other words of the same lexical kind that begin with the same scope keywords (if any), string literals and block comments for others with as many lines, and line comments for others, then the tokens are the same at the same lines with the same kinds but for their texts; ParseScope makes scopes of the same kinds and lines with as many nodes, of the same kinds and lines, and each node's text is put together from the exchanged tokens exactly as it was from the original ones; GetFuncName, GetMethodName, GetMethodReceiver, GetTypeName, GetStructName and GetInterfaceName find the corresponding texts with the same flags. So what is in a string or comment never changes the structure found, and renaming a word everywhere commutes with parsing. Refuted for any word: a name that begins with a keyword, like variable, starts a scope at the beginning of a line.", "quantifier": "all texts, exchanges at any number of places, heaps, map orders, start lines", "why_tests_cant": "all texts and all names, strings and comments in them", "anchors": ["scope.go:ParseScope", "extractor.go:extract", "kind_resetter_all.go", "scope.go:GetFuncName", "scope.go:GetMethodName", "scope.go:GetMethodReceiver", "scope.go:GetTypeName", "scope.go:GetStructName", "scope.go:GetInterfaceName"]}
{"id": "C73", "title": "Exactly which scope lists make Save, Description and Copy return", "statement": "Every node is either on a chain with two ends or on a circle. Save, Description and Copy of an ast return exactly if no scope of it is nil and none starts at a node on a circle. Otherwise the first such scope decides: if it is nil they panic (Save before it has touched any file), if it is on a circle they run for ever. Package and NewAst look at the scopes up to the first package clause only: a nil scope before it makes them panic, what comes after it does not matter, and without a package clause the error is returned.", "quantifier": "all heaps incl. circular ones, asts, files, file systems", "why_tests_cant": "the claim ranges over every history of calls on every reachable linking of nodes; tests try a handful of five-node lists", "anchors": ["ast.go:Save", "ast.go:Description", "ast.go:Copy", "ast.go:Package", "ast.go:NewAst", "ast.go:findPackageName"]}
{"id": "C74", "title": "Exactly which tokens can be written down and read back", "statement": "A list of tokens - separators, words, closed strings and comments - in which every word is followed by a separator, a string or a comment (no comment after a word that ends with a slash) and every line comment by a line break, can be written without anything in between and is read back by the tokeniser as the same tokens with the same kinds, one node each. Conversely every text that does not end inside a string or comment is such a list, so these are exactly the lists that can be read back; and each text is the writing of one list only. Refuted without the condition on neighbours: two words in a row are read as one.", "quantifier": "all lists of tokens, all texts, heaps, map orders", "why_tests_cant": "the claim ranges over every byte string; tests tokenise a few hand-written snippets", "anchors": ["extractor.go:extract", "extractor.go:Run", "kind/kind.go:NewKind"]}
{"id": "C75", "title": "Files of a grammar are understood as written", "statement": "For every file of a grammar of gofmt-formatted declarations - package, import, var and const clauses, comments, grouped types, functions and methods (with or without a body, with receivers, named or not or named _, type parameters with unions and any other constraints written without two words in a row, parameters and results in one or several lines with comments, or with a last parameter ...func(...) without a single result; for functions also on a line of its own), structs (with comments, tags, several names per field, embedded types, fields that are structs of their own or slices, arrays or maps of such, nested to any depth), interfaces (with methods, embedded types and unions), aliases, named types and function types, with types nested to any depth (pointers, slices, arrays, maps, channels and their directions, generic types with any number of arguments, variadic and function types, empty structs and interfaces), each of which may end with a comment - ParseScope makes one scope per declaration, of the right kind, beginning on the declaration's line; the nodes are its tokens, with function, type, parameter, field and receiver names and types marked as such and everything else left alone (of a parameter, result or receiver written without a name or with the name _, the first identifier of the type is marked as a name, unless the type is a single unnamed word, and the receiver is then not found; of a single result, what stands between spaces and braces becomes one node; the parameters of a function type as a result are marked, and so are its results if there are several, while in a struct all identifiers of such results are marked as types; of the single result of a declared function type, the first identifier outside brackets is marked as a function name; a named type is one node, with the space before a comment); Save writes the file back byte for byte; GetFuncName, GetMethodReceiver, GetMethodName, GetTypeName return the declared names, and GetStructName and GetInterfaceName the type's name and whether the keyword is one of its nodes. Each declaration can be cut out, moved or put into another file (C60, C68, C71). Refuted: that names are marked as names and types as types always - after _ a type is marked as a name, and so is T in a result list ([]T, error), of two names sharing a type the first is marked as a type, the result of a declared function type as a function name, and the names of results in a struct as types. Refuted beyond the grammar: a result []func(a T) is torn apart, a parameter of a function type with several results ends the parameter list (in f(g func() (A, B), x X) the name x becomes a type and X) one node), after a parameter ...func(...) on a line of its own the results of the function are not found, and after parameters in several lines a result list that begins with a function type (or a name like variable) starts a new scope.", "quantifier": "all files of the grammar (unbounded numbers of declarations, nesting depths, names, bodies), heaps, map orders", "why_tests_cant": "infinitely many files; nesting; composition of tokenising, splitting, refining and saving", "anchors": ["scope.go:ParseScope", "extractor.go:extract", "kind_resetter_all.go", "scope.go:GetFuncName", "scope.go:GetMethodName", "scope.go:GetMethodReceiver", "scope.go:GetTypeName", "scope.go:GetStructName", "scope.go:GetInterfaceName", "ast.go:Save"]}
{"id": "C76", "title": "An ast that looks like a file is that file", "statement": "Whatever made the scopes of an ast - parsing, editing, putting together, or NewNode and NewScope from nothing -: if kinds of scopes, and texts and kinds of their nodes, are those of a file of the grammar of C75, then Save writes exactly that file, the getters name its declarations, Package names its package, and ParseAst of the saved file gives an ast that looks the same. Selections and joins of scopes look as expected; SetText, SetKind, TakeNext and InsertNext of a new node change what is seen in one place; one SetText renames a declaration. By such calls every file of the grammar can be generated from nothing, and every file be turned into every other with the same kinds of declarations. Refuted for tokens that are not of the grammar: two words in a row are read back as one.", "quantifier": "all heaps, scopes, files of the grammar, edits; file systems, formatters, map orders", "why_tests_cant": "all ways of making an ast; composition of building, editing, saving and parsing again", "anchors": ["node.go:NewNode", "node.go:SetText", "node.go:SetKind", "node.go:InsertNext", "node.go:TakeNext", "scope.go:NewScope", "scope.go:ParseScope", "ast.go:Save", "ast.go:ParseAst", "ast.go:Package", "scope.go:GetFuncName", "scope.go:GetTypeName"]}
{"id": "C77", "title": "Scopes of the user's own types", "statement": "Scope is an exported interface; an ast may hold values of any type that implements it, whose methods may change nodes, lists, asts and files, panic or never return. Whatever they do: Save asks each element of the list once, in order, for its Node and calls nothing else; the elements are those found in the list when their turn comes, as many as there were at the call; the text is that of the nodes reachable at that moment; only after all have answered is the file touched, so a nil, panicking or hanging scope never damages a file. Description asks for Description and then Node; Package and NewAst ask for Kind up to the first package scope and then that one's Node; Copy asks for Copy and its new list holds the answers in order; IterScope calls no method. Nothing but the answers of Node matters to Save, and if the methods answer like those of library scopes (wrappers), Save, Description, Package and Copy have the results they have for these. That Save writes the scopes in the list at the time of the call is false.", "quantifier": "All implementations of the interface (arbitrary methods over arbitrary state, panics and divergence included), all lists, nodes, files and environments.", "why_tests_cant": "Tests use a few scope types; the methods are arbitrary code of the user's.", "anchors": ["scope.go:Scope", "ast.go:findPackageName", "ast.go:NewAst", "ast.go:Package", "ast.go:IterScope", "ast.go:Description", "ast.go:Save", "ast.go:Copy"]}
{"id": "C78", "title": "Joining slices without a repetition", "statement": "helper.AppendUnrepeatable on real slices, whatever arrays its arguments share: it never panics; the result shows the elements of the first slice followed by those of the second, without the second's first element if it equals the first's last; it is the first slice itself when there is nothing to add and the second argument itself - no copy - when the first is empty; otherwise it lies over the first slice's array when that has room and in a new one when it has not. Only spare cells right behind the first slice's elements are ever written, as many as the result is longer: the first slice and every slice without an element there keep their elements. (False: that the second argument keeps its elements - it may lie in the spare capacity of the first -, and that the result is a copy.) Collecting elements one by one into a slice that starts empty gives the sequence with every run of equal elements cut to one, however arrays grow.", "quantifier": "All element types, memories, pairs of slices (overlapping or not, any capacities), growth policies of the runtime, sequences collected.", "why_tests_cant": "All layouts of shared memory and all growth policies; tests see the layouts and the policy of one runtime.", "anchors": ["helper/helper.go:AppendUnrepeatable", "kind_resetter_all.go:Run", "kind_resetter_func.go:Run"]}
