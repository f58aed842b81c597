# Formal model of rustwasm/weedle in Rocq (Coq 8.16.1)

weedle is a parser for WebIDL built from nom 5 macros: every syntax tree type has a `Parse` implementation that the
macro `ast_types!` generates from its declaration.  The model follows the code parser by parser; the theorems are about
what the parsers accept, what they return, and what they leave.

Properties: `properties.jsonl`.  Theorems: `rocq/theories/Properties.v` (statements, examples and `Print Assumptions` only).
Which theorem belongs to which property: `MANIFEST.json`.  Wrong programs tried: `seeded/LOG.jsonl`.

## Trusted base

* The kernel of Coq 8.16.1, including its bytecode machine (`vm_compute` is used for examples, for witnesses of
  `..._refuted` theorems and for some decidable side conditions).
* Axioms: none.  `Print Assumptions` answers "Closed under the global context" for every theorem in `Properties.v`.
  No axiom of the standard library is used either.  (Libraries that are loaded but not used declare `Coq.ssr.ssrunder`.)
* That the model says what the code does.  Nothing was compiled or run in `/repo`.  The model is tied to the source text in
  two independent ways:
  * it was written by reading `/repo`: `Lex.v`, `Ast.v`, `Grammar.v`, `Api.v`, where every definition cites the lines it models;
  * C53 proves that it does what the source text does: the text of all files of `/repo/src` is in `Source.v`, and it is read,
    macro-expanded and run inside of Coq.  With C53 one need not trust the hand-written model, but only: that `Source.v` is the
    text of `/repo/src` (`tools/embed.py --check` compares them), the reader for the subset of Rust (`Rust.v`, `Crate.v`), its
    interpreter (`Interp.v`), and nom.
  In both cases `Nom.v` (and `Bytes.v`) has to be compared with nom 5 and Rust's `str`, whose sources are not in `/repo`.
* That the specification says what the English property says: `Spec.v`, and the definitions listed under each property.

## What is modelled

| code | model |
|---|---|
| nom 5 combinators and macros used by the crate: `tag`, `take_while`, `take_while1`, `take_until`, `one_of`, `char`, `recognize!`, `opt!`, `alt!`, `many0!`, `separated_list!`, `separated_nonempty_list!`, `terminated!`, `map!`, `cond!`, `do_parse!` | `Nom.v`, with nom's result type: `Ok rest value`, `Err (Error | Failure | Incomplete)` with position and kind |
| `src/whitespace.rs` (`sp`, `ws!`) | `Lex.v` |
| `src/term.rs`: all 85 terminals, `ident_tag!` | `Lex.v` (`term`, `term_text`, `p_term`) |
| `src/literal.rs` | `Lex.v` (`p_DecLit` ... `p_ConstValue`) |
| `Identifier` of `src/common.rs` | `Lex.v` (`p_Identifier`) |
| all types of the syntax tree | `Ast.v` |
| the parsers generated by `ast_types!` for `src/types.rs`, `argument.rs`, `attribute.rs`, `interface.rs`, `mixin.rs`, `namespace.rs`, `dictionary.rs`, `lib.rs` | `Grammar.v`, one parser expression each |
| the generic implementations of `src/common.rs` (`Option`, `Box`, `Vec`, pairs, triples, `Parenthesized`, `Bracketed`, `Braced`, `Generics`, `Punctuated`, `PunctuatedNonEmpty`) and `MayBeNull` | `Grammar.v` for the instances the grammar uses; `Api.v` for any instance |
| the trait `Parse`, i.e. the set of all public parsers | `Api.v`: `Impl` and `Parser` list every implementation |
| `&str` as UTF-8 bytes: `str::chars`, `find`, char boundaries, slices that panic; nom 5's traits for `&str` (`Compare`, `InputTake`, `InputTakeAtPosition`, `FindSubstring`, `Offset`, `Slice`); the lexical layer once more on bytes | `Bytes.v`; related to the text model in `Utf8.v` (C43) |
| derived `PartialEq`, `Eq`, `PartialOrd`, `Ord`  | `Data.v`: order of variants and fields of every type, `cmp`; C54 compares it with the declarations in the source text |
| derived `Debug` (`{:?}`) and `Hash`, and where `Copy` is derived | `SourceDerive.v`: `debug`, for any set of printable characters; `Copies`; `SourceHash.v`: `hashed` |
| the unit tests, the integration tests in `tests/`, the documentation comments | read from the source text and run or checked: `SourceTests.v`, `SourceFiles.v`, `SourceDocs.v`, `SourceRegex.v` (C58 to C60) |
| the source text itself: tokens, `macro_rules!`, modules, `struct`, `enum`, `type`, `fn`, `impl Parse`, `impl From`, and the expressions in them, before and after expansion of the macros of `src/macros.rs` | `Source.v` (verbatim), `Rust.v` (tokens, `macro_rules!`), `Crate.v` (items and expressions), `Interp.v` (running them) |
| `weedle::parse` | `Grammar.v`: `parse`, with outcomes `Parsed`, `Failed` (returns `Err`), `Panicked` (assertion), `NoReturn` |

Text is a list of Unicode code points, and `Bytes.v` has the same parsers on UTF-8 bytes; C43 proves that they do the same,
so that the other theorems carry over.  `&str` slices that are results are modelled by their contents.  Recursion is
modelled with fuel; running out of fuel is a result of its own (`Diverge`) and C01 proves that it never comes out, so no
theorem is true for lack of fuel.

Simplifications (each is also stated where it is made):

* fields that are mandatory terminals (unit structs) are left out of the tree, `Box` and single field wrappers are
  transparent (`Ast.v`, head comment);
* loops of `many0!` and `separated_list!` over text have the length of the text plus one as fuel;
* nom's bytes are characters except in `Bytes.v`; the only place where weedle itself looks at bytes, `ident_tag!`, looks at
  the first byte of the UTF-8 encoding (`first_byte`).

Simplifications in reading and running the source (C53):

* comments, doc comments, `#[cfg(test)]` items (but see C58), visibility, lifetimes, bounds and attributes other than `derive` are skipped;
* macros are not hygienic; C67 proves that this makes no difference (two calls of one macro of which the one is in the arguments of the other
  would share their names there; the source has none);
* names are resolved by their last segment, or the last two (`term::Or`, `NomErr::Error`); C66 proves for types and
  functions that this finds what the `use` declarations say; types by unification with the
  `impl`, the type parameters standing for any type; `From::from` by the types of its argument and of `Self`;
* `Default::default()` is only defined for unit structs (the separators of `Punctuated`);
* a macro of nom is an expression of its own whose meaning is the combinator of `Nom.v`;
* whatever has no meaning is `Stuck`, which is not a possible outcome of the model, so that C53 shows that it does not happen.
  One exception: a closure in `take_while` that got stuck would count as `false`; a panic inside of a sub-parser would count as
  stuck (there is none: the only assertion is in `parse`).

Not modelled: the `README.md` (its program is C63_ex4); the derived `Clone` and `Default` of the trees (except `Default` for unit structs); lifetimes; the memory and stack
use of the compiled program (C38 bounds the nesting of recursive calls only).  `{:#?}` is not modelled; `{:?}` is (C63).

## How it is proved

1. `RunFacts.v`, `Shapes.v`: by induction on fuel and expression, for any parser expression: what is left is a suffix,
   errors are recoverable and point into the input, more fuel does not change results, and an expression whose recursive
   calls are guarded by consumption (`Shape`) terminates within fuel "length of the text + 1".
2. `LexFacts.v`, `NumFacts.v`, `TokFacts.v`, `TermFacts.v`, `LexProps.v`: the character level parsers against the
   specification of blanks and lexemes in `Spec.v`.
3. `Tok.v`: every text splits uniquely into tokens and a stuck rest; the parser on text and the same parser on tokens run
   in lock step.  `TokRun.v`: evaluation on tokens independent of fuel.
4. `TokSound.v`: a parse on tokens reads the concrete syntax of the tree that it returns (`show_*` of `Spec.v`).
   `TokComplete.v`, `TokMembers.v`: whatever is written as the concrete syntax of a well-formed tree is parsed to that
   tree, in spite of the order of the alternatives.
5. `Exact.v`, `Print.v`, `Items.v`, `Nodes.v`, `Shows.v`, `Cost.v`, `Upper.v`, `Lexer.v`, `Errors.v`, `Ren.v`, `Frag.v`, `Stream.v`, `Words.v`, `Scan.v`, `Size.v`, `WebIDL.v`, `Standard.v`, `Relaxed.v`, `Decide.v`: the consequences for texts.
6. `Utf8.v`: the parsers on bytes and on code points run in lock step.

`Spec.v` does not mention the parsers.  It defines blanks (`Blank`), lexemes, tokens, layouts of token sequences
(`Lay`, `Toks`, `Ats`), the concrete syntax of each type of tree as a list of tokens with places for names (`show_*`,
`Conc`), and which trees are well-formed (`wf_*`).  The clash rule is part of it: an unescaped name must not be a word
that the grammar reads as a keyword in that place.

## Properties

| id | how it is expressed and proved |
|---|---|
| C01 | no parser listed in `Parser` (all public ones and all generic instances) returns `Diverge`; `parse` never is `NoReturn`.  Guardedness (`Shape`) of all parsers and induction on fuel. |
| C02, C03 | for every `Parser`: rest and error positions are suffixes, errors are `Error`. |
| C04 | `Vec` of any item parser: always `Ok`, the items form a chain of parses, the item parser fails on the rest. |
| C05 | `parse` in terms of `Definitions::parse`; never `Err`.  *Refuted*: malformed input is reported through `Err`. |
| C06, C07 | `parse` accepts exactly the layouts of sentences; stated as equivalence with the specification (C06_exact), for `Definitions::parse` with any rest, and for which trees are in the range of `parse`. |
| C08 | same tokens, same outcome; the token sequence of a text is unique; blanks around. |
| C09 | no text is the concrete syntax of two well-formed trees. |
| C10 | printing and parsing again; injectivity of the printer. |
| C11 | every parser that is not a list or an option consumes; the repetition combinators never report missing progress. |
| C12-C19, C36 | each lexical parser as an equivalence with the specification of its lexeme, maximality included. |
| C16 | *Refuted* as documented (`0x` is accepted); the exact behaviour is proved. |
| C20 | *Refuted*: every accepted text followed by a line comment without newline panics (C20_line). |
| C21 | *Refuted*: every nonempty blank text panics. |
| C22, C23 | the generic lists for any item and separator parser. |
| C24-C26, C34 | collectors of all arguments, record keys and unions of a tree at every depth (`Nodes.v`), for 14 kinds of trees.  C34 is *refuted*: `()` is accepted as a union. |
| C27, C28 | equivalences with words; `any` and promise types exactly.  C28 is *refuted* in unions and record keys: there the word `any` is a name, so that `any?` is accepted. |
| C29 | leading keywords decide the kind; no two alternatives match the same text.  *Refuted* for one pair: `typedef includes X;` is matched by typedef and by includes (the typedef wins). |
| C30 | members and definitions: exact texts, with any rest. |
| C31 | concatenation, and division of a text between any two definitions. |
| C32 | the names and literals of the tree occur one after the other in the text. |
| C33 | non-ASCII characters only in strings and comments. |
| C35 | one closing semicolon outside brackets per definition; the last token is a semicolon. |
| C37 | *Refuted*: `Cost.v` counts steps; nested attribute arguments `[A([A([A] any... y)] any... y)]` take exponentially many. |
| C38 | nesting of recursive calls at most the length of the text; every depth is reached. |
| C39 | `Definitions::parse` stops in front of what is not a definition. |
| C40 | `Upper.v`: at most `C ^ (length + 1)` steps for every parser; polynomial for each depth of recursion; depth of `parse` at most the nesting of brackets (`height`, over the tokens of any text, accepted or not).  `Linear.v`: `parse` takes at most `c ^ (height + 1) * (tokens + 1)` steps.  Loops and recursive calls of the grammar are directly inside of brackets and everything else begins a bounded number of groups (`Span`), so that the work on the items of a list adds up (`whole`). Together with C37 (exponential lower bound). |
| C41 | `Errors.v`: exact error values of all enums (`EnumParser` lists them), terms, identifiers, strings. |
| C42 | `Lexer.v`: existence, uniqueness and computation of the split of any text into tokens. |
| C43 | `Bytes.v`, `Utf8.v`: on any well-formed UTF-8 (`Utf8`, the table of the Unicode standard) no parser cuts inside of a character, and it does what the model on code points does. |
| C44 | `Ren.v`: replacement on tokens (`RenTok`) and on trees (`ren_*`); the token run commutes with it. |
| C45 | `Frag.v`: equivalences with the concrete syntax of `Spec.v`; `Closed` says that the rest does not continue a type. |
| C46 | from the exactness of `Definitions::parse`: tokens that end with `;` are not changed by text behind them. |
| C47 | *Refuted*: a template with a word in 35 places for names is parsed as these names for every word.  Exact sets of reserved words for types and behind `long`. |
| C48 | `Scan.v`: from the lock step of `Tok.v`; `two_phases` is `parse` with the lexer of `Lexer.v` in front. |
| C49 | `Data.v` turns every value into numbered variants and fields in the order of declaration; `Order.v`: `cmp` is a total order on these, the representation is injective for every type (`Repr` lists them), UTF-8 keeps the order of characters. |
| C50 | `Size.v`: induction on the tree, nodes against elements of concrete syntax that cannot be left out. |
| C51 | `WebIDL.v` has the context-free grammar of the standard, written as in the standard, and what a derivation is; `Standard.v`: every derivation in the fragment `Supported` is turned into a tree and its concrete syntax (then C07 applies), and every rule of the fragment is derivable in the standard.  *Refuted* for the whole standard, with a text for every difference. |
| C52 | `Relaxed.v`: the grammar of the standard with the relaxed rules listed in its header; the concrete syntax of every tree (C07) is rewritten into a derivation.  `Decide.v`: the grammar has no left recursion (checked by computation), so the depth of a derivation is bounded by the number of tokens and derivability is decided by search; so for each relaxation an accepted text is shown not to be in the standard.  *Refuted* for the standard itself. |
| C53 | `Source.v` ... `SourceProps.v`.  `Embed.v` says which Rust value a tree of the model is, with all fields.  `Faithful.v`: each kind of expression refines its combinator; `SourceLex.v`, `SourceTypes.v`: one lemma per type, by running its expanded `parse` symbolically, and induction on the recursion; `SourceProps.v`: `fn parse`, and coverage of all `impl Parse`. |
| C54 | `SourceWt.v`: `wt`, the typing of values by the declarations that were read from the source; every tree is a value of its type.  `SourceOnto.v`: every value of the type is a tree, by induction on the size of the value.  `SourceData.v`: `dv`, what the derived comparison looks at, with the order of variants and fields from the declarations, compares like `Data.v`.  `SourceFacts.v`: all types together, and what is derived. |
| C55 | `Live.v`: one text with everything; its result by `parse_source` (C53) and computation, its parts by computation over the declarations that were read from the source.  For the unused structs: the closure of the result type under fields and variants does not contain them, and results are typed (C54). |
| C56 | `Attr.v`: `Annotated` lists the 42 parsers of constructs with an attribute field, with the field; each sequence and each choice is shown to pass the attribute list through.  *Refuted* for arguments: `[A] [B] long x` has two lists. |
| C57 | `Concat.v`: as C31, for the members of interfaces, mixins, namespaces and dictionaries as well, with any rest. |
| C58 | `SourceTests.v`: the test modules are read from the text in `Source.v` and `SourceDefs.v`, the macros `test!`, `test_variants!` and `generate_tests!` are expanded by `Rust.v`, and a small interpreter for the statements of tests runs them, with `call 100` of `Interp.v` for `T::parse` and `weedle::parse`. Evaluated in the kernel. The integration tests are in `SourceFiles.v`, for every fuel that is large enough: the files are cut between definitions, the parts are evaluated in the model and put together by C31, and C53 carries the result to the source. |
| C59 | `SourceDocs.v`: the documentation comments are read from the text in `Source.v`; a small reader for the notation of the forms (`?`, `|`, groups, `((` for parentheses); `HasForm` says which texts have a form, with the parsers of the source (`Interp.v`) for the names in it.  Each grammar expression is compared with its form from left to right.  *Refuted* for five forms and one term, with witnesses. The examples are evaluated; the programs are run as in C58, without `println!`. |
| C60 | `SourceRegex.v`: a reader and the usual meaning of regular expressions (`Matches`); the expressions in the documentation mean the lexemes of `Spec.v`, then C12-C17.  *Refuted* for `HexLit`. |
| C61 | `SourceDecl.v`, `SourceDecl2.v`: the items read from the source as a grammar (`InTurn`, `StopsAt`, `FirstOf`, `NoneOf`, `Many`, `More`), equivalent to the results of running the source.  The expanded bodies of the parsers are compared with the bodies that the declarations call for (`struct_body`, `enum_body`).  Leaves: terminals (C13), identifiers and literals (C12, C15-C17, C60). |
| C62 | `SourceOrder.v`: what a type begins with is followed through the declarations (C61) as sequences of symbols (`Sound`, checked for all 247 symbols that are met); a search (`excl`) finds that two sequences begin no common text, proved right for every depth (`excl_ok`) and run once on all pairs of variants.  The pairs that it does not settle (`overlaps`) have a text for each.  The new order of one enum is compared with all other types read as before. |
| C63 | `SourceDerive.v`: `debug` writes what `derive(Debug)` and the standard library write (escapes in strings, names of fields and variants, commas), for any version of the library.  `debug_inj`: by induction on the size of the value; after the output of a value comes nothing that could continue it, because names are words and strings end at the first quote that is not escaped.  `debug_chars` for the characters. |
| C64 | `SourceDerive.v`: `Copies` is the rule of `derive(Copy)` on the declarations; checked for all items by computation (`all_copy_exact`, with `copies_ok` for all type arguments).  The values with vectors or boxes are found inside the results of two texts.  `ConstType` refutes that it is derived wherever it can be. |
| C65 | `SourceHash.v`: `hashed` writes what `derive(Hash)` and the standard library write.  `hash_inj`: by induction on the size of the value; a string ends at the byte 255, which is not in UTF-8, lengths and numbers of variants have a fixed width. |
| C66 | `SourceNames.v`: reads each file apart (`files_read`: items and `use` declarations; `files_items`: together they are `crate_items`) and says what a name means in a file (`Means`).  `names_mean`, `declared_once`, `imports_declared`: by computation over all names. |
| C67 | `SourceHygiene.v`: reads the source once more with macros in which every variable bound by a template (`binders`) has a name that occurs nowhere else (`own_macros`: another one for each rule and each level of recursion).  `own_alpha`: the items are the same but for the names of bound variables (`alpha`, computed); `eval_alpha`, `call_alpha`: such items run alike (induction on the fuel and the expressions, environments related by `Rel`); `hygiene`.  `no_capture`: names that are free in a template are nowhere bound.  Not covered: hygiene of nom's own macros, which are not expanded. |
| C68 | `Brackets.v`: `Balanced` on tokens (inductive) and the stack machine `opened`; `Balanced_exact` shows them equal.  Over the printers of `Spec.v`: every part of a definition is a `Run` (matching brackets, no semicolon, braces only as `{}`), `outline` puts the parts together.  `parse_balanced`, `definitions_balanced`, `semicolons`, `braces`, `count_semicolons` follow with C06 and the unique split into tokens (C42). |
| C69 | `SourceSlices.v`, on the interpreter of `Interp.v`: `From s v` (all strings of `v` are slices of `s`) is kept by each parser of nom and, if the variables satisfy it, by every expression without string literals other than patterns (`eval_from`, mutual induction over expressions, arms and statements); by evaluation all bodies of the source are such expressions (`crate_clean`); `call_from` by induction on the depth.  A slice is meant by content (a list of code points between two others): addresses are not modelled.  That it is the same memory follows from the type `&'a str` in rustc, not from this proof. |
| C70 | `SourceDepth.v`, on `Interp.v`: `eval_le` (mutual induction over expressions, arms and statements): with more depth and more turns for the loops of nom, an expression has the same answer or had given up.  Needed of an expression: the patterns and predicates handed to nom make no calls (`mono`), shown for all bodies of the source by evaluation.  `call_le`, `call_once`; with C53 `C70_parse`, `C70_impls`.  The depth is one of this interpreter, not the stack of a machine; no bound for the depth needed is given here. |

Refuted properties are given as `..._refuted` theorems with a concrete witness, beside the theorem that says what holds
instead.

## Validation of the model

The grammar in `WebIDL.v` is not code of the crate: it was transcribed from memory (there is no network), as of the version of
the standard around the pinned commit (with `undefined`, `bigint`, `async iterable`, `ObservableArray`).  It derives all six
files in `/repo/tests/defs` (evaluated; three of them in `TestDefs.v` at build time).  Its terminals are the tokens of `Spec.v`;
identifiers that begin with `-`, which the standard permits, are not tokens of the crate.

The model was extracted to OCaml (outside /verif) and run on the six WebIDL files in `/repo/tests/defs`: all of them are
accepted, with the numbers of definitions that the tests in `/repo/tests` expect where they state one (1, 37, 37, 62, 201,
325 definitions).  `Tests.v` repeats all unit tests of `/repo/src` as examples
evaluated in the model, and `TestDefs.v` evaluates three of the WebIDL files at build time.  `SourceTests.v` (C58) reads the
tests from the source instead and runs them with the interpreter of the source; the six files are covered by `SourceFiles.v`.

Theorems are tested against wrong programs: `seeded/LOG.jsonl` has one line per changed model definition, with the theorems
that no longer hold.  `failed_theorems` are the theorems of `Properties.v` whose proof, directly or through a lemma, does not
go through for the wrong program; `failed_examples` are the concrete examples (and theorems) of `Properties.v` that fail
themselves, `first_failed_lemmas` the lemmas that fail first.
