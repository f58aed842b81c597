{"id": "C01", "title": "Every parser terminates", "statement": "For every type T implementing Parse and every string s, T::parse(s) returns (Ok or Err): no unbounded recursion without consuming input, no infinite repetition loop. In particular weedle::parse always finishes.", "quantifier": "all input strings, all public Parse implementations (mutually recursive types, attributes and arguments included)", "why_tests_cant": "Divergence on one input (left recursion, an item that matches the empty string inside many0) is invisible to any finite set of passing inputs.", "anchors": ["src/lib.rs: Parse, parse", "src/types.rs: Type, NonAnyType, UnionMemberType", "src/attribute.rs: ExtendedAttribute", "src/argument.rs: Argument", "src/common.rs: Vec<T>, Punctuated"]}
{"id": "C02", "title": "The remaining input is a suffix of the input", "statement": "Whenever T::parse(s) = Ok((rest, v)), s is the concatenation of the consumed text and rest: no text is skipped, reordered or invented.", "quantifier": "all strings s and all Parse implementations", "why_tests_cant": "Quantifies over all inputs and over all parsers.", "anchors": ["src/lib.rs: Parse", "src/macros.rs: ast_types", "src/whitespace.rs: sp"]}
{"id": "C03", "title": "Errors are recoverable and point into the input", "statement": "Whenever T::parse(s) = Err(e), e is Err::Error((pos, kind)) with pos a suffix of s. No parser ever returns Err::Incomplete or Err::Failure.", "quantifier": "all strings s and all Parse implementations", "why_tests_cant": "An Incomplete would only appear on specially truncated inputs; tests sample only a few truncation points.", "anchors": ["src/lib.rs: parse", "src/macros.rs: tag, take_while, take_until, one_of, char"]}
{"id": "C04", "title": "Definitions::parse never fails", "statement": "Definitions::parse(s) (and Vec<T>::parse for every AST type T) returns Ok for every s, with the longest run of items it can recognise and the untouched rest.", "quantifier": "all strings s", "why_tests_cant": "Universal over malformed input.", "anchors": ["src/lib.rs: Definitions", "src/common.rs: impl Parse for Vec<T>"]}
{"id": "C05", "title": "weedle::parse returns Ok exactly when the whole input is consumed", "statement": "weedle::parse(raw) = Ok(defs) iff Definitions::parse(raw) = Ok((\"\", defs)); in every other case it panics on the assertion and it never returns Err, although its signature says it reports malformed input as Err (the claim 'malformed input is reported through Err' is refuted).", "quantifier": "all strings raw", "why_tests_cant": "A test can only show one malformed input; the claim is that the Err branch is dead for all inputs.", "anchors": ["src/lib.rs: parse"]}
{"id": "C06", "title": "Soundness: accepted text is a sentence of the documented grammar for the returned tree", "statement": "If weedle::parse(text) = Ok(defs) then text is a sequence of WebIDL tokens separated by blanks and comments, and that token sequence is the documented concrete syntax of defs (same keywords, punctuation, identifiers and literals, same order, nothing left out and nothing added).", "quantifier": "all texts", "why_tests_cant": "Quantifies over all accepted texts and all trees, including arbitrarily nested types, attributes and arguments.", "anchors": ["src/lib.rs: parse, Definition", "src/interface.rs", "src/types.rs", "src/attribute.rs", "src/argument.rs"]}
{"id": "C07", "title": "Completeness: every tree has source text and any layout of it parses back to that tree", "statement": "For every well-formed list of definitions, writing down its documented concrete syntax with any blanks and comments between tokens and escaping identifiers that clash with keywords gives a text that weedle::parse maps back to exactly that list.", "quantifier": "all well-formed trees (any depth and size) and all layouts", "why_tests_cant": "Ordered choice can shadow a later alternative on some nested combination; no finite corpus covers all combinations.", "anchors": ["src/lib.rs: Definition", "src/macros.rs: __ast_enum", "src/interface.rs: InterfaceMember", "src/types.rs: NonAnyType"]}
{"id": "C08", "title": "Blanks and comments never matter", "statement": "Two texts with the same token sequence (any choice of spaces, tabs, newlines, line and block comments between and around tokens) give the same outcome of weedle::parse: both the same Ok value or both rejected.", "quantifier": "all token sequences (grammatical or not) and all pairs of layouts of them", "why_tests_cant": "Unbounded layouts; tests place comments in a few spots only.", "anchors": ["src/whitespace.rs: sp, ws", "src/term.rs", "src/common.rs: Identifier"]}
{"id": "C09", "title": "Source text determines the tree; no two trees share a text", "statement": "The concrete syntax is unambiguous: if a text is a layout of the concrete syntax of two well-formed trees (with the same keyword-clash rule), the trees are equal.", "quantifier": "all pairs of trees, all texts", "why_tests_cant": "Universal over pairs of trees.", "anchors": ["src/lib.rs: Definition", "src/types.rs: Type"]}
{"id": "C10", "title": "Print-and-reparse is the identity on parser output", "statement": "If weedle::parse(text) = Ok(defs), then printing defs (identifiers escaped with a leading underscore, one space between tokens) and parsing again gives Ok(defs).", "quantifier": "all accepted texts", "why_tests_cant": "Universal over accepted texts.", "anchors": ["src/lib.rs: parse"]}
{"id": "C11", "title": "Every repeated item consumes input", "statement": "Every successful parse of a definition, member, argument, attribute, type, identifier, literal or terminal consumes at least one character, so the repetition combinators never hit their 'no progress' error.", "quantifier": "all strings, all non-optional Parse implementations", "why_tests_cant": "A single empty match would turn a repetition into an error; only a proof over all inputs excludes it.", "anchors": ["src/common.rs: Vec<T>, Punctuated, PunctuatedNonEmpty"]}
{"id": "C12", "title": "Identifier lexing", "statement": "Identifier::parse(s) skips blanks, takes the longest prefix matching /_?[A-Za-z][0-9A-Z_a-z-]*/ and returns it without the one leading underscore, then skips blanks; it fails iff no prefix matches.", "quantifier": "all strings", "why_tests_cant": "All strings, all boundary characters including non-ASCII.", "anchors": ["src/common.rs: Identifier"]}
{"id": "C13", "title": "Keyword boundaries", "statement": "A keyword term parses iff, after blanks, the text starts with the keyword and the next character (if any) is not a letter, digit, '_' or '-'. So DOMStringMap is never read as DOMString, and non-ASCII characters do end a keyword.", "quantifier": "all strings and all 68 keyword terms", "why_tests_cant": "All continuations of all keywords.", "anchors": ["src/term.rs: ident_tag, generate_terms_for_names"]}
{"id": "C14", "title": "Keyword terms are mutually exclusive", "statement": "On any input at most one keyword term parses; among punctuation terms the only pair that can both parse is '.' and '...'.", "quantifier": "all strings, all pairs of terms", "why_tests_cant": "All strings.", "anchors": ["src/term.rs: generate_terms, generate_terms_for_names"]}
{"id": "C15", "title": "Decimal and octal integer literals", "statement": "DecLit::parse takes exactly the longest prefix matching -?[1-9][0-9]* and OctLit::parse the longest prefix matching -?0[0-7]*, verbatim; IntegerLit picks Dec, Hex or Oct by the first digits, and never reads a decimal literal as octal or vice versa.", "quantifier": "all strings", "why_tests_cant": "All digit strings.", "anchors": ["src/literal.rs: IntegerLit, DecLit, OctLit"]}
{"id": "C16", "title": "Hexadecimal literals have at least one digit", "statement": "HexLit::parse accepts only -?0[Xx][0-9A-Fa-f]+ as its documentation says. (Refuted: '0x' alone is accepted; what holds is -?0[Xx][0-9A-Fa-f]*, longest prefix.)", "quantifier": "all strings", "why_tests_cant": "The documented lower bound of one digit fails on inputs nobody tests.", "anchors": ["src/literal.rs: HexLit"]}
{"id": "C17", "title": "Float literals", "statement": "FloatValueLit::parse takes, verbatim, exactly the longest prefix matching -?(([0-9]+\\.[0-9]*|[0-9]*\\.[0-9]+)([Ee][+-]?[0-9]+)?|[0-9]+[Ee][+-]?[0-9]+) and fails iff there is none; an integer literal is never read as a float.", "quantifier": "all strings", "why_tests_cant": "Nested ordered choice over all digit strings.", "anchors": ["src/literal.rs: FloatValueLit, FloatLit"]}
{"id": "C18", "title": "String literals are verbatim", "statement": "StringLit::parse succeeds iff, after blanks, the text is a double quote, characters other than a double quote, and a double quote; it returns exactly these characters (blanks, comment markers, backslashes and non-ASCII included).", "quantifier": "all strings", "why_tests_cant": "All string contents.", "anchors": ["src/literal.rs: StringLit"]}
{"id": "C19", "title": "Blank skipping is exact and maximal", "statement": "The blank skipper never fails, skips a sequence of space/tab/CR/LF characters, //...\\n comments and /*...*/ comments, and what is left does not start with any of these.", "quantifier": "all strings", "why_tests_cant": "All interleavings of comments and whitespace, unterminated comments.", "anchors": ["src/whitespace.rs: sp"]}
{"id": "C20", "title": "A line comment ends at a newline or at the end of the text", "statement": "A trailing line comment without a final newline is ignored like any other comment. (Refuted: weedle::parse panics on a valid file that ends with a line comment and no newline.)", "quantifier": "all texts", "why_tests_cant": "The claim is about every file ending.", "anchors": ["src/whitespace.rs: sp", "src/lib.rs: parse"]}
{"id": "C21", "title": "A text of only blanks and comments is an empty list of definitions", "statement": "weedle::parse of a text with no tokens returns Ok([]). (Refuted: it panics for every nonempty such text; only the empty string gives Ok([]).)", "quantifier": "all blank texts", "why_tests_cant": "All blank texts.", "anchors": ["src/lib.rs: parse", "src/whitespace.rs: ws"]}
{"id": "C22", "title": "Separated lists", "statement": "Punctuated<T,S>::parse never fails; it returns the items in source order with exactly one separator between consecutive items, does not consume a trailing separator, and stops only where no further 'separator item' can be read.", "quantifier": "all strings, all item and separator types of the crate", "why_tests_cant": "Any number of items; trailing separators.", "anchors": ["src/common.rs: Punctuated", "src/attribute.rs: ExtendedAttributeList", "src/argument.rs: ArgumentList"]}
{"id": "C23", "title": "Non-empty separated lists", "statement": "PunctuatedNonEmpty<T,S>::parse fails iff the first item fails, otherwise returns at least one item and swallows one optional trailing separator. Hence every parsed enum has at least one value.", "quantifier": "all strings", "why_tests_cant": "Any number of items.", "anchors": ["src/common.rs: PunctuatedNonEmpty", "src/lib.rs: EnumDefinition, EnumValueList"]}
{"id": "C24", "title": "A default value implies an optional argument", "statement": "In every tree returned by any parser of the crate, an argument that carries a default value is marked optional.", "quantifier": "all parsed trees, arguments at every depth (operations, constructors, attributes of attributes, ...)", "why_tests_cant": "The invariant must hold at every depth of every tree.", "anchors": ["src/argument.rs: SingleArgument"]}
{"id": "C25", "title": "Attributes written before an argument belong to the argument", "statement": "In every parsed tree, an argument that has neither attributes nor 'optional' has no attributes on its type: a leading [..] is attached to the argument.", "quantifier": "all parsed trees, arguments at every depth", "why_tests_cant": "Invariant at every depth.", "anchors": ["src/argument.rs: SingleArgument", "src/types.rs: AttributedType"]}
{"id": "C26", "title": "Canonical record keys", "statement": "In every parsed tree a record key that is one of the three string types is represented by the dedicated variant, never by the generic non-any variant.", "quantifier": "all parsed trees, every depth", "why_tests_cant": "Invariant at every depth.", "anchors": ["src/types.rs: RecordKeyType"]}
{"id": "C27", "title": "Integer types take the longest form", "statement": "IntegerType::parse reads 'unsigned'? then 'long long' if two long keywords follow, else 'long', else 'short', and fails otherwise; 'unsigned' alone is never consumed.", "quantifier": "all strings", "why_tests_cant": "All continuations and layouts.", "anchors": ["src/types.rs: IntegerType"]}
{"id": "C28", "title": "Nullable marker", "statement": "MayBeNull<T>::parse succeeds iff T::parse does, has q_mark set iff the text after T continues with '?', and consumes at most one '?'. The type 'any' and Promise types never take a '?' (but in unions and record keys the word any is read as a name, which does).", "quantifier": "all strings, all T of the crate", "why_tests_cant": "All types and continuations.", "anchors": ["src/types.rs: MayBeNull, SingleType, NonAnyType::Promise"]}
{"id": "C29", "title": "The kind of a definition is decided by its leading keywords", "statement": "If weedle::parse succeeds, each definition's variant agrees with the keywords after its attributes (callback, callback interface, interface, interface mixin, namespace, dictionary, partial ..., enum, typedef, includes, implements), and no other variant could have matched the same tokens, but for texts that begin with 'typedef includes' or 'typedef implements', which are typedefs if they can be.", "quantifier": "all texts", "why_tests_cant": "Ordered alternatives with shared prefixes; all names, also names that look like keywords.", "anchors": ["src/lib.rs: Definition"]}
{"id": "C30", "title": "The kind of an interface, mixin or namespace member is decided by its keywords", "statement": "Every well-formed const, attribute, constructor, operation, iterable, async iterable, maplike, setlike and stringifier member parses to its own variant, although the operation alternative is tried before iterable/maplike/setlike/stringifier (and before attribute in mixins and namespaces).", "quantifier": "all well-formed members with arbitrary types, arguments and attributes", "why_tests_cant": "Operation accepts any identifier as a return type, so shadowing depends on unboundedly nested types.", "anchors": ["src/interface.rs: InterfaceMember", "src/mixin.rs: MixinMember", "src/namespace.rs: NamespaceMember"]}
{"id": "C31", "title": "Parsing is compositional over concatenation", "statement": "If weedle::parse(a) = Ok(x) and weedle::parse(b) = Ok(y) then weedle::parse(a + b) = Ok(x ++ y).", "quantifier": "all pairs of accepted texts", "why_tests_cant": "All pairs of texts.", "anchors": ["src/lib.rs: parse, Definitions"]}
{"id": "C32", "title": "Names and literals are verbatim slices of the source, in order", "statement": "Every identifier, number and string in the returned tree is a contiguous piece of the input text, and they occur in the text in the order of the tree.", "quantifier": "all accepted texts", "why_tests_cant": "All texts and all positions in the tree.", "anchors": ["src/common.rs: Identifier", "src/literal.rs: DecLit, HexLit, OctLit, FloatValueLit, StringLit"]}
{"id": "C33", "title": "Outside strings and comments accepted text is ASCII", "statement": "If weedle::parse(text) = Ok(_), every non-ASCII character of text lies inside a string literal or a comment.", "quantifier": "all accepted texts", "why_tests_cant": "All of Unicode at every position.", "anchors": ["src/common.rs: Identifier", "src/term.rs", "src/whitespace.rs: sp"]}
{"id": "C34", "title": "Unions have at least two members", "statement": "Every parsed union type has two or more members, as WebIDL requires. (Refuted: '()' and '(long)' are accepted.)", "quantifier": "all parsed trees", "why_tests_cant": "Universal over trees.", "anchors": ["src/types.rs: UnionType"]}
{"id": "C35", "title": "Accepted files end with a semicolon", "statement": "If weedle::parse(text) = Ok(defs) with defs non-empty, the last token of text is ';', and exactly one top-level ';' closes each definition.", "quantifier": "all accepted texts", "why_tests_cant": "All texts.", "anchors": ["src/lib.rs: Definition"]}
{"id": "C36", "title": "Escaped identifiers are never keywords", "statement": "An identifier written with a leading underscore is never matched by a keyword term, and names the identifier without the underscore.", "quantifier": "all names, keywords included", "why_tests_cant": "All names.", "anchors": ["src/common.rs: Identifier", "src/term.rs: ident_tag"]}
{"id": "C37", "title": "Polynomial running time", "statement": "The number of parsing steps of weedle::parse is bounded by a polynomial in the length of the text. (Refuted: nested attribute argument lists are reparsed once per alternative, giving exponentially many steps.)", "quantifier": "all texts, asymptotically", "why_tests_cant": "An asymptotic lower bound over a family of inputs of unbounded size cannot be established by running finitely many of them.", "anchors": ["src/argument.rs: Argument", "src/attribute.rs: ExtendedAttribute", "src/interface.rs: InterfaceMember"]}
{"id": "C38", "title": "Recursion depth is linear in the input", "statement": "The depth of nested recursive parser calls is at most the length of the text; and it is not bounded by any constant (nested sequence<...> reach every depth), so stack use is linear.", "quantifier": "all texts", "why_tests_cant": "All nesting depths.", "anchors": ["src/types.rs: SequenceType, UnionType", "src/attribute.rs: ExtendedAttribute"]}
{"id": "C39", "title": "Garbage after valid definitions is left untouched", "statement": "Definitions::parse(text + rest) returns the definitions of text and the remaining input rest whenever text is accepted and rest cannot begin a definition.", "quantifier": "all accepted texts, all rests", "why_tests_cant": "All texts and rests.", "anchors": ["src/lib.rs: Definitions"]}
{"id": "C40", "title": "Time is linear for bounded bracket nesting, and exponential at worst", "statement": "There is a constant c such that parse takes at most c^(h+1) * (t+1) steps for any text with t tokens in which at most h brackets (, [ and < are open at the same time; so for every bound on the nesting, time is linear in the length of the text. The recursion depth of parse is at most h. Every Parse impl takes at most C^(|s|+1) steps on a text s for some C, and at most a polynomial in |s| for each depth of recursion.", "quantifier": "all parsers, all texts, all bounds", "why_tests_cant": "Asymptotic bounds over all texts.", "anchors": ["src/lib.rs: parse", "src/macros.rs", "src/types.rs", "src/attribute.rs"]}
{"id": "C41", "title": "Where and how a failing parser reports its error", "statement": "Every enum that fails reports ErrorKind::Alt at its own unconsumed input; every term! reports Tag at the first non-blank character; Identifier reports TakeWhile1 behind blanks and at most one underscore; StringLit reports Char at the first non-blank character, or at the end of the text if the string is not closed.", "quantifier": "all enums, all terms, all failing inputs", "why_tests_cant": "Error positions are claimed for all failing inputs; the crate has no test that looks at an error.", "anchors": ["src/macros.rs: __ast_enum", "src/macros.rs: ast_types", "src/term.rs: generate_terms", "src/common.rs: Identifier", "src/literal.rs: StringLit"]}
{"id": "C42", "title": "Every text has exactly one split into tokens", "statement": "Although the parser has no lexer, every text is in exactly one way a sequence of blanks, tokens (each ending where the scannerless parsers end it) and a rest at which no token starts, and this split can be computed.", "quantifier": "all texts", "why_tests_cant": "Existence and uniqueness for all texts.", "anchors": ["src/term.rs", "src/common.rs: Identifier", "src/literal.rs", "src/whitespace.rs"]}
{"id": "C43", "title": "Slices never cut a character", "statement": "On every well-formed UTF-8 input, every Parse impl returns without a slicing panic: all byte offsets at which nom cuts the &str (tag, take_while, take_until, char, one_of, recognize) are character boundaries, consumed and remaining input are well-formed UTF-8, and value, rest and error are those of the same parser on the sequence of characters.", "quantifier": "all parsers, all UTF-8 byte strings", "why_tests_cant": "Tests use a few non-ASCII strings; the claim is for all strings and all positions.", "anchors": ["src/whitespace.rs: sp", "src/term.rs: ident_tag", "src/common.rs: Identifier", "src/literal.rs", "src/macros.rs: tag, take_while, take_until, one_of, char"]}
{"id": "C44", "title": "Names and literals can be replaced", "statement": "The outcome of parse depends on names and literals only through keywords: if every non-keyword name, every string, integer and decimal of a token sequence is replaced consistently (no new keyword; a leading underscore may come or go), then parse accepts exactly when it accepted before, and the tree is the old tree with the same replacement in every identifier and literal field.", "quantifier": "all texts, all replacement functions, all layouts", "why_tests_cant": "Quantifies over all texts and all renamings.", "anchors": ["src/common.rs: Identifier", "src/term.rs: ident_tag", "src/literal.rs", "src/lib.rs: parse"]}
{"id": "C45", "title": "Exact texts of types, arguments and attributes", "statement": "Type, ReturnType, AttributedType, ConstType, Argument and ExtendedAttribute parse exactly the concrete syntax of the tree they return, provided that what follows does not continue it; argument lists in parentheses and extended attribute lists do so without any condition.", "quantifier": "all texts, all rests, all trees", "why_tests_cant": "Quantifies over all texts and everything that may follow.", "anchors": ["src/types.rs", "src/argument.rs", "src/attribute.rs"]}
{"id": "C46", "title": "Definitions that were read stay when more text arrives", "statement": "If Definitions::parse(a) returns xs and Definitions::parse(a + b) returns ys then xs is a beginning of ys; parsing can be resumed at the rest of a (with b appended, leading blanks skipped) and gives exactly the missing definitions and the same final rest.", "quantifier": "all texts a and b, cut anywhere (within tokens, comments, definitions)", "why_tests_cant": "Quantifies over all texts and all cut positions.", "anchors": ["src/lib.rs: Definitions", "src/common.rs: Vec", "src/whitespace.rs"]}
{"id": "C47", "title": "Keywords are reserved", "statement": "A keyword is accepted as a name only with a leading underscore. (Refuted: every word, keyword or not, is accepted as the name of a definition, member, argument, attribute, parent or right side of includes; only built-in types without parameters are reserved as type names, and long behind a type ending with long.)", "quantifier": "all words of the form [A-Za-z][0-9A-Z_a-z-]*", "why_tests_cant": "Quantifies over all words; which words are not reserved is decided by the order of alternatives in the whole grammar.", "anchors": ["src/common.rs: Identifier", "src/types.rs", "src/lib.rs"]}
{"id": "C48", "title": "The scannerless parser equals a lexer followed by a parser on tokens", "statement": "Although the parsers work on characters with no lexer, splitting the text into tokens first (longest lexeme, the same for every rule of the grammar) and running the grammar on the tokens gives the same tree, fails in the same cases and leaves the corresponding rest; parse panics exactly when some part of the text is no token, the tokens are not a sequence of definitions, or the text is blank but not empty.", "quantifier": "all texts, all parsers without the terms - and .", "why_tests_cant": "Quantifies over all texts; a scannerless parser may tokenize differently in each context, which shows only for special inputs.", "anchors": ["src/lib.rs: parse", "src/macros.rs: tag, ident_tag", "src/term.rs"]}
{"id": "C49", "title": "The derived comparisons are total orders", "statement": "For every type of the crate the derived Ord is a total order, with Equal exactly for structurally equal values, so that Eq, Ord and Hash agree and trees can be keys of sorted maps; comparing the names and literals byte by byte is comparing them character by character.", "quantifier": "all types of the syntax tree, all values", "why_tests_cant": "Quantifies over all pairs and triples of trees.", "anchors": ["src/macros.rs: derive lines of ast_types", "src/term.rs: derive"]}
{"id": "C50", "title": "Trees are linear in the text", "statement": "The number of nodes of the tree returned by parse is at most 10 times the number of tokens, plus 1, and so linear in the length of the text, although parsing time is not (C37).", "quantifier": "all accepted texts", "why_tests_cant": "Quantifies over all texts.", "anchors": ["src/lib.rs: parse", "src/types.rs", "src/common.rs"]}
{"id": "C51", "title": "The grammar of the Web IDL standard is accepted, up to listed exceptions", "statement": "The crate documents that it follows the grammar of the Web IDL standard. Every sequence of tokens derivable in that grammar is accepted if it has no attributes on the types inside of sequence<>, FrozenArray<>, record<,> or behind required, no ObservableArray, no undefined? as a return type and no unescaped identifier legacycaller; for each of these exceptions there is a text of the standard that panics.", "quantifier": "all texts derivable in the grammar of the standard (without the exceptions)", "why_tests_cant": "The language is infinite; tests only have six files.", "anchors": ["src/lib.rs:19-22", "src/types.rs", "src/interface.rs", "src/dictionary.rs"]}
{"id": "C52", "title": "Nothing outside of the standard's grammar is accepted, up to listed relaxations", "statement": "Every accepted text is derivable in the grammar of the Web IDL standard with 24 rules relaxed (reserved words as identifiers, implements statements, constructors in partial interfaces, inheritance and arbitrary members in callback interfaces, nullable constant types and null constants, inherit readonly attributes, static and stringifier in front of special operations, legacycaller, two attribute lists in front of an argument, defaults behind required dictionary members, unions with fewer than two types or with promises, record keys of other types, empty attribute lists, empty identifier lists, string values in attributes). For each relaxation there is an accepted text that the grammar of the standard does not derive.", "quantifier": "all texts that parse returns a tree for", "why_tests_cant": "Negative tests can only show that single wrong texts are rejected, not that there is nothing else that is wrongly accepted.", "anchors": ["src/lib.rs:19-22", "src/types.rs", "src/interface.rs", "src/dictionary.rs", "src/attribute.rs"]}
{"id": "C53", "title": "The model is what the source text says", "statement": "The 13 files of /repo/src, embedded verbatim, are read by a reader for the subset of Rust that they are written in (tokens, macro_rules! expansion, items, expressions), and every item is understood. Running the function parse of src/lib.rs on any text gives exactly what the hand-written model says: the same tree with all its fields, the same error, or a panic. The same holds for every implementation of Parse in the source, and all implementations are covered.", "quantifier": "all texts, all types that implement Parse", "why_tests_cant": "This is about the relation of the source text and the model on all inputs.", "anchors": ["src/lib.rs", "src/macros.rs", "src/term.rs", "src/whitespace.rs", "src/literal.rs", "src/common.rs", "src/types.rs", "src/argument.rs", "src/attribute.rs", "src/interface.rs", "src/mixin.rs", "src/namespace.rs", "src/dictionary.rs"]}
{"id": "C54", "title": "Values and comparisons follow the declarations in the source", "statement": "By the struct and enum declarations in the source text, every value of a type of the crate is exactly one tree of the model and every tree is a value of the type; what parse and the implementations of Parse return has the declared type. The comparison that derive(PartialOrd, Ord) makes from the declarations (variants in order of declaration, then fields in order) is a total order whose Equal is equality, and is the comparison of the model. Every struct and enum derives Clone, Debug, Eq, PartialEq, Ord, PartialOrd and Hash.", "quantifier": "all types of the crate, all values, all texts", "why_tests_cant": "It is about all values of all 171 types and their pairs and triples, and about the relation of the declarations to the model.", "anchors": ["src/macros.rs", "src/lib.rs", "src/common.rs", "src/types.rs", "src/literal.rs"]}
{"id": "C55", "title": "Nothing in the declared types is left over", "statement": "There is one text for which parse returns a tree in which every variant of every enum of the source occurs, every struct but four, both Some and None for every optional field of every struct, a value of every type that is used, and for every type of lists one with several items and (where that is possible) an empty one. The four remaining structs (term::Minus, term::Dot, term::True, term::False) occur in no result for any text.", "quantifier": "all types, variants and fields declared in the source; for the unused structs: all texts", "why_tests_cant": "That a struct never occurs is about all texts; that nothing was forgotten is about all declarations.", "anchors": ["src/lib.rs", "src/term.rs", "src/types.rs", "src/interface.rs", "src/common.rs"]}
{"id": "C56", "title": "Attribute lists are transparent", "statement": "For every construct with an attributes field: if the text starts with an extended attribute list that is not followed by another one, then it is parsed exactly if the text behind the list is, and the trees differ in the attributes field only; the field is Some exactly if the text starts with an attribute list, and then holds that list. Except for arguments (whose type may have attributes of its own), two lists in a row are rejected. The attributes of the first definition or member can be cut off the text.", "quantifier": "all constructs with attributes, all texts", "why_tests_cant": "It is about every attribute list in front of every construct.", "anchors": ["src/attribute.rs:5-9", "src/lib.rs", "src/interface.rs", "src/mixin.rs", "src/namespace.rs", "src/dictionary.rs", "src/argument.rs"]}
{"id": "C57", "title": "Lists of members can be joined and cut", "statement": "If a text is completely parsed as a list of members (of an interface, a mixin, a namespace, a dictionary) or definitions, and a second text is parsed as such a list with a rest that does not start with a blank, then their concatenation is parsed as the concatenation of both lists with that rest. Conversely a text that is parsed as x ++ y can be cut into a text for x and a text for y.", "quantifier": "all texts, all lists of members", "why_tests_cant": "It is about all pairs of lists of members.", "anchors": ["src/interface.rs", "src/mixin.rs", "src/namespace.rs", "src/dictionary.rs", "src/common.rs"]}
{"id": "C58", "title": "The tests of the crate, read from its source and run, pass", "statement": "Every unit test in the test modules of the source (561 after expansion of the test macros) passes when it is read from the embedded source text and run by the interpreter of the source. So do the six integration tests in tests/webidl.rs, with the files they read.", "quantifier": "all tests in the #[cfg(test)] modules of src and in tests/webidl.rs", "why_tests_cant": "They are the tests; running them inside of Coq checks the reading and the interpretation of the source, on which C53 and C54 rest, against what the authors of the crate expect.", "anchors": ["src/macros.rs:554-614", "src/term.rs:573-704", "src/types.rs:169-385", "tests/webidl.rs"]}
{"id": "C59", "title": "The documentation comments are right about what is parsed", "statement": "The documentation comments of the source are read from its text. Every type that is documented with a form (such as `[attributes]? typedef attributedtype identifier;`) reads only texts of this form, where the names in the form stand for what the types of the source read; every term is documented with its symbol; every example in the documentation of a type is parsed by this type up to blanks; the programs in the documentation run without panic. This fails for the forms of five types (CallbackDefinition, IdentifierOrString, StringifierMember, Special, AttributeNamespaceMember), and for the terms NegInfinity and BufferSource (no closing tick).", "quantifier": "all documented types (52 forms), all terms, all examples, all texts", "why_tests_cant": "Doc tests run programs; nothing checks the forms in prose comments against all inputs.", "anchors": ["src/lib.rs:115-242", "src/interface.rs:11-145", "src/types.rs:53-167", "src/term.rs:55-312", "src/attribute.rs:14-60", "src/namespace.rs:33", "src/literal.rs:51"]}
{"id": "C60", "title": "The regular expressions in the documentation are exact", "statement": "Identifiers, decimal and octal literals, strings and floating point literals are parsed exactly as the regular expressions in their documentation comments say: after blanks, the longest beginning of the text that matches, then blanks; the value is the matched text, without the underscore of an identifier and the quotes of a string. For hexadecimal literals the documented expression is wrong.", "quantifier": "all texts, all rests, all values", "why_tests_cant": "Equality of the language of a regular expression and of a parser, with longest match, is about all texts.", "anchors": ["src/common.rs:76-91", "src/literal.rs:5", "src/literal.rs:15", "src/literal.rs:26", "src/literal.rs:40", "src/literal.rs:94"]}
{"id": "C61", "title": "The declarations are the grammar", "statement": "What the parsers of the source do is fixed by the declarations: a struct declared with ast_types! reads the types of its fields in turn, each where the one before it stopped, and fails where the first of them fails; an enum gives its first variant that can be read, and fails at the start of its input when none can; Option, Box, tuples, Vec, Punctuated and PunctuatedNonEmpty are the usual repetitions, where a separator that no item follows is given back in Punctuated and consumed in PunctuatedNonEmpty; the default value of an argument is read after `optional` only. Every variant of an enum has exactly one From implementation, which gives this variant, and there are no others.", "quantifier": "all 57 structs and 25 enums that are declared with ast_types!, all 123 From implementations, all arguments of generic types, all texts, rests, values and errors", "why_tests_cant": "It is an equivalence between the declarations as a grammar and the results of the parsers on all texts, and over all declarations.", "anchors": ["src/macros.rs:180-535", "src/common.rs:5-36", "src/common.rs:120-180", "src/argument.rs:14-23", "src/attribute.rs:55-57"]}
{"id": "C62", "title": "The order of the variants of an enum", "statement": "The variants of an enum declared with ast_types! are tried in the order of the declaration. The order is needed for exactly 51 pairs of variants, in 12 of the 25 enums: such a pair has a text that begins with both, and the enum gives the first of the two. Two variants of an enum that are not such a pair never begin the same text. So the variants of an enum can be put in another order without any change of its results exactly if these 51 pairs stay in their order (for example `long long` before `long`, Identifier after all keyword types, Constructor before Operation, Typedef before IncludesStatement).", "quantifier": "all enums declared with ast_types!, all pairs of variants, all permutations, all texts, rests and values", "why_tests_cant": "That two variants never begin the same text is about all texts; a test shows one.", "anchors": ["src/macros.rs:400-550", "src/attribute.rs:13-60", "src/interface.rs:19-60", "src/literal.rs:4-100", "src/types.rs:13-160", "src/lib.rs:116-290"]}
{"id": "C63", "title": "Debug output determines the tree", "statement": "All types derive Debug. The output of {:?} on a tree determines the tree: two trees of the same type have the same output only if they are equal, and the end of the output can be found even if other text follows it. The output is one line of printable characters. This holds for every version of the standard library, whatever characters it regards as printable.", "quantifier": "all types of the crate, all trees, all texts that are parsed, all versions of the standard library", "why_tests_cant": "Injectivity is about all pairs of trees; field names, variant names and the escapes in strings all have to be told apart from what surrounds them.", "anchors": ["src/macros.rs:191", "src/macros.rs:232", "src/macros.rs:411", "src/term.rs:5", "src/term.rs:42"]}
{"id": "C64", "title": "Copy is derived where it can be", "statement": "Copy is derived for 119 of the 178 types. It is legal there: all fields are Copy when the type arguments are, so values that can be copied contain no Vec and no Box. Of the other types all but one have values with a Vec or a Box, which are results of parse. The exception is ConstType, which could derive Copy and does not.", "quantifier": "all 178 types, all type arguments, all values", "why_tests_cant": "It is about all declarations and all values; the compiler shows that a derived Copy is legal, but not that it is derived wherever it can be.", "anchors": ["src/macros.rs:180-535", "src/types.rs:150-165", "src/common.rs:30-75"]}
{"id": "C65", "title": "What is hashed determines the tree", "statement": "All types derive Hash. The bytes that the derived Hash gives to a hasher determine the tree: two trees of the same type give the same bytes exactly if they are equal, and the bytes of a tree are never a proper beginning of the bytes of another one. So different trees collide only if the hasher makes them collide.", "quantifier": "all types of the crate, all trees with valid strings and vectors of representable length, all widths and byte orders of usize", "why_tests_cant": "Injectivity is about all pairs of trees; a test sees no collision in a few.", "anchors": ["src/macros.rs:191", "src/macros.rs:232", "src/macros.rs:411", "src/term.rs:5", "src/term.rs:42"]}
{"id": "C66", "title": "Every name in the source means one declaration", "statement": "No type, alias or function is declared twice in the crate. Every name used in a declaration, a parser or a conversion is declared in the same file, or imported by a use declaration from the module that declares it, or is a term; no other module declares the name. The remaining names are Option, Box, Vec, str, bool and nom's is_alphanumeric, and no module declares or imports something else under these names. Everything imported from a module of the crate is declared there.", "quantifier": "all files, all items, all names in them", "why_tests_cant": "A test sees what the names were resolved to, not that no other declaration could be meant.", "anchors": ["src/lib.rs:41", "src/argument.rs:1", "src/types.rs:1", "src/common.rs:1", "src/term.rs:42"]}
{"id": "C67", "title": "The variables of macros stay apart", "statement": "Reading the crate with hygienic macros, that is, with every variable that a macro template binds renamed to a name of its own for each rule and level of recursion, gives items that differ from those read without hygiene only in the names of bound variables, and every parser and function has the same result on all inputs. No name that a template uses without binding it is a variable anywhere in the source.", "quantifier": "all macros, rules and items; all parsers, inputs and depths", "why_tests_cant": "A test runs the program that rustc made of the macros; that the expansion does not depend on hygiene, so that the model reads the same program, is about all expressions of the source.", "anchors": ["src/macros.rs:43", "src/macros.rs:221", "src/macros.rs:183", "src/macros.rs:400", "src/term.rs:18", "src/whitespace.rs:20"]}
{"id": "C68", "title": "Brackets match", "statement": "In an accepted text, outside of strings and comments, the brackets (), [], <> and {} match and nest properly; this also holds for the part that Definitions::parse reads of any text. A semicolon is outside of all brackets or directly inside of the braces of a definition. Braces are outside of all other brackets, except for the default value {}. There are exactly as many semicolons as definitions and members, each the last token of its definition or member.", "quantifier": "all texts that are accepted, all texts for Definitions::parse", "why_tests_cant": "Unbounded nesting; a parser that loses or adds a bracket somewhere is only seen on texts that happen to go there.", "anchors": ["src/common.rs:29", "src/lib.rs:95", "src/interface.rs:8", "src/literal.rs:63", "src/types.rs:8"]}
{"id": "C69", "title": "Strings in a result are slices of the input", "statement": "Whatever parser or function of the source runs on a text: every string in what it returns (identifiers, literals, the rest) is a contiguous piece of that text, and so is the position in an error. No string literal of the source becomes a value; all of them are patterns for the parsers of nom.", "quantifier": "all texts, all parsers and functions of the source, all depths", "why_tests_cant": "Tests compare the strings of a few trees; the claim is about every string of every tree.", "anchors": ["src/common.rs:83", "src/literal.rs:8", "src/literal.rs:43", "src/lib.rs:93"]}
{"id": "C70", "title": "One result at every depth of calls", "statement": "The interpreter of the source gives up beyond a given depth of calls. With more depth the result stays the same unless it had given up; at every depth each parser of the source and fn parse give up or give exactly the result of the model, for every text; two depths never give two results.", "quantifier": "all texts, all depths, all implementations of Parse and fn parse", "why_tests_cant": "A result that depends on how deep the calls may go (a branch taken because something inside gave up) shows only at particular depths.", "anchors": ["src/lib.rs:83", "src/macros.rs:45", "src/types.rs:8"]}
