# Formal model of undname-rs in Coq: design

## What is modelled

`/repo/src` is a pure function from `(mangled string, flag word)` to a demangled
string or an error, plus a buffer-reuse API.  All of it is modelled as an executable
Gallina program, function by function, each definition citing the file and lines it models:

| model file (rocq/theories) | code |
|---|---|
| `Base.v`    | result type, characters, UTF-8 encoder/strict decoder, decimal/hex formatting (std) |
| `Syntax.v`  | `lib.rs` errors and flags, `nodes/enums.rs`, node structs of `nodes/derived.rs`, handle kinds of `cache.rs` / `nodes/intermediate.rs` |
| `MString.v` | `mangled_string.rs`, `extensions.rs` |
| `ByteString.v` | `mangled_string.rs` again, on bytes (shown equivalent) |
| `Machine.v` | the leaf functions of `demangler.rs`, `cache.rs`, `extensions.rs` again, with fixed-width integers and unchecked operations (shown equal) |
| `Output.v`  | `BufWriter` of `demangler.rs`, every `output*` function of `nodes/*.rs` |
| `Parser.v`  | every `demangle_*` function of `demangler.rs`, `NodeCache::intern/resolve/downcast` of `cache.rs` |
| `Api.v`     | `parse_into`, `demangle_into`, `demangle` |
| `Lines.v`   | (first theorems aside) `main` of `examples/undecorate_name.rs` |
| `Vectors.v` | regression vectors of `src/tests.rs` evaluated in the model (tests, not proofs) |

Modelling decisions
* A Rust `&str` is a list of code points (`N`); byte offsets are computed with the UTF-8
  length of each code point, and slicing off a character boundary is a `Panic`.
* Every Rust panic (`expect`, index out of range, arithmetic overflow in the character counter,
  violated `unsafe` precondition) is the explicit outcome `Panic`; errors are `Err e`.
* Recursion runs on fuel; running out is the distinct outcome `Fuel`, which theorems exclude.
  The parser fuel is `1 + number of input characters`, the printer fuel is `1 + number of nodes`.
* Unicode `char::is_alphanumeric` outside ASCII, the growth policy of `Vec`, and how `write!` cuts a
  text into the pieces it hands to `BufWriter::write`, are arbitrary
  functions in the environment record; all theorems quantify over them.
* Machine words: `u64` values are `N` with explicit `mod 2^64`, `as u32`/`as i32` casts truncate
  explicitly, `try_into` is a range check.

Not modelled: the bump allocator and its memory (allocation is assumed to succeed), the native
stack (only its depth in recursive calls is visible in the model), `thiserror` messages, `Debug`
impls, fuzz/bench targets, build metadata.

## Trusted base
* Coq 8.16.1's kernel (with its `vm_compute` machine, used in examples and regression vectors) and its standard library.
* Axioms: none of our own, and none used.  `Print Assumptions` stands under every theorem named in
  MANIFEST.json and answers "Closed under the global context" for all of them.  Merely loading the
  standard library's `ssreflect`-related modules declares seven opaque constants of
  `Coq.ssr.ssrunder.Under_rel` (`Over_rel`, `Under_rel`, `Under_rel_from_rel`, `Under_relE`,
  `over_rel`, `over_rel_done`, `under_rel_done`); no theorem depends on them.
* The reading of the Rust source into the model (each definition cites the lines it models).
  `Vectors.v`, generated by `tools/gen_vectors.py` from `/repo/src/tests.rs`, evaluates the model on the
  project's own test vectors; it is a test of the reading, not a proof.
* The specifications: `Show.v` (C++ text), `Grammar.v` and `BadGrammar.v` (mangled text), `Number.v`
  (first part), and the definitions under a heading "Specification" in the theorem files.

## Map of the development
* Model: `Base Syntax MString Output Parser Api`.
* Unconditional guarantees: `Utf8 Wf PrintOk Lex ParseOk Safety` (one invariant over the whole parser: well-formed,
  acyclic, kind-correct node graph; then the printer), `Rel RelOut Flags` (two runs under flag words that agree on the
  relevant bits), `Thr Limits` (two runs under two budgets), `Budget` (exact count for a family), `Cost Short` (nodes per character), `Depth`,
  `Prefix Trailing` (two runs, one with text appended), `Less LessOut LessParse Suppress` (two runs under more suppression flags), `OutErr SameErr Verdict` (two runs under any flags, errors included),
  `AnyErr Decide` (two runs under any settings), `Alike AlikeParse Opaque` (two runs on renamed texts), `Effort Meter Metered MeterCost MeterShown Work` (counting runs),
  `Balance BalanceAll` (brackets), `AllNames InnerNames Wording Whole` (names), `Errors`, `Amplify AmplifyMore`, `Distinct`, `Hidden`, `Lines`, `Realloc`, `ByteString`, `Machine`.
* Functional correctness: `Show Grammar` (specification), `Den Emit Pend ReadAt Round* Trip` (the parser reads back every
  text of the grammar and prints what it denotes), then the API-level theorems `NameRefs NumArr Members ParamRefs Mangle Specials TemplateScope`.
* Completeness: `Sound SoundNames SoundTypes SoundArgs SoundSyms Accepted Unique` (backwards: a successful run of each parsing
  function consumed a text of the grammar; partial-correctness triples `pw` in step with the forward triples of `Round*`).
* Rejection: `Reject Md5 BadGrammar Bad Defects`.
* String literals: `Format Literal StrLit LitRead LitBack`.

## Per property
| id | modelled and proved how |
|---|---|
| C01, C02, C04, C06, C07 | `Safety.v`, for every input, flag word and environment, from the invariant of `ParseOk.v` and `PrintOk.v`; a panic or exhausted fuel is a distinct outcome of the model |
| C03 | `Depth.v`: explicit family, induction on the depth |
| C05 | `Limits.v`: exact threshold for every input; `Budget.v`: exact count for functions with one-letter parameters |
| C08, C09 | `Safety.v`: over all buffers, contents and growth policies |
| C10 | `Reject.v`; C11: `Md5.v` |
| C12, C13 | `Number.v`, `NumArr.v`, `Defects.v` |
| C14, C15 | `StrLit.v`: encoder written independently, all byte strings; every successful output for C15 |
| C16, C17, C18 | `NameRefs.v`, `ParamRefs.v`, `TemplateScope.v`, `Defects.v` (positive and negative) |
| C19-C21 | `Flags.v`, congruence of parser and printer in what they read of the flag word; C22 by witnesses |
| C23 | `Limits.v` |
| C24, C25 | `Trip.v` (relational grammar), `Mangle.v` (a computable encoder and declaration syntax) |
| C26, C30, C32 | `Members.v` |
| C27 | `Trailing.v`, relational, every accepted input |
| C28, C31 | `Specials.v` |
| C29 | `Suppress.v`, relational, every accepted input without template instantiation; the statement was corrected after a counterexample (one space in type-info names) |
| C33 | `Accepted.v`: the grammar of `Grammar.v` and the parser accept the same texts; backwards induction on the fuel, then the forward theorem gives the printed text. All Rust strings, including MD5 names and string literals at any depth (`Literal.v` is their specification; `LitRead.v`, `LitBack.v` read them forwards and backwards) |
| C34 | `Cost.v`: amortised analysis of every parser function (a character pays 5, a node costs 4; each function has a proved entry and exit credit), induction on the recursion budget; `Short.v` states the results. |
| C35 | `Unique.v`: every reading is the run of the (deterministic) parser under limits raised far enough; the grammar is monotone in the limits (`Trip.grammar_higher`); what is printed determines the denotation |
| C36 | `SameErr.v`: two runs step by step, their node graphs equal up to the text of names; `OutErr.v`: printing fails only for lack of memory; `Verdict.v` states it |
| C37 | `Balance.v`: what is put around a name nests; `BalanceAll.v`: induction over the grammar of decorated names, carried to the code by `accepted_is_decorated` (C33) |
| C38 | `Effort.v`: a printer that counts its visits, shown to write what the printer writes (`counting_is_faithful`); potential argument by induction on the fuel: a visit is either paid for by a byte or one of at most four descents per level of the graph. Uses that the components of a qualified name are identifiers (`Wf.KIdents`). Covers the printing of the result; the renderings made while parsing (names of template instances and local scopes) are the subject of C43 |
| C39 | `Errors.v`: the invariant of `ParseOk` also carries that an error raised is not one of a list of dead ones; where the code could raise one, the look-ahead that led there (pointer, member pointer, storage class, local scope) is evaluated and excludes it. The converse is a table of short inputs, evaluated for an arbitrary environment, and for the two limits the theorems of `Budget.v` and `Trip.v` on inputs large enough |
| C40 | `Distinct.v`: a separate description of C++ types (`cty`) and of what a mangled type means (`meaning`); the text of `Show.v` is cut into words and punctuation, the words of a declaration are given by a function of its meaning only (`declT`), and that function is shown injective by reading the words from the left: base type, qualifiers, pointers with their opening brackets, name, then the closing brackets, dimensions and parameter lists in the order the openings dictate (induction over the type). With C24/C25 this gives the statement about `demangle` for the compiler's spelling (`text_tells_apart`), with C33 for every accepted one (`symbols_tell_apart`). Examples show two merging texts outside the fragment |
| C41 | `Amplify.v`: the inputs are written out (`amplifier`); by induction on the depth they are symbols of `Grammar.v` whenever the limit admits the rendered names, their text doubles at every level, and C33's machinery under raised limits (`reading_outcome`) and the threshold theorems of `Limits.v` give the outcome under every limit. `AmplifyMore.v`: the same for constructors of classes local to constructors, without back-references. |
| C42 | `Hidden.v`: `forget`, `seen` say what each flag leaves visible of a type and of a declaration; the text of `Show.v` is shown to be a function of the visible part (induction over the type), and C33 carries this to `demangle`. Examples record the two leaks (`__restrict` under NO_MS_KEYWORDS, `noexcept` under NAME_ONLY). |
| C43 | `Meter.v`: the parser over a monad with a meter, generated from `Parser.v` by `tools/meter.py` (a source transformation; what it generates is checked, not trusted: `Metered.v` proves that each function, meter aside, is the one of `Parser.v`). `MeterCost.v`: credit argument, every character consumed pays for 160 operations; `MeterShown.v`: every rendering is paid for by a character of its own and satisfies the bound of C38 on the store of that moment (whose qualified names have identifiers as components). `MeterStore.v`: every rendering is also paid for by a node of its own (so there are at most 2049), and the nodes and slices of the graph by operations. `MeterScan.v`: a search is paid for by the characters it passes over, or ends the parse; the test for a local scope, which looks ahead to the next `?` without consuming, is paid for by the text behind the first `?`, which it moves on (`searching_is_linear`). Not counted: what one operation otherwise does inside (comparing a prefix, comparing names in the table of at most ten), and how the arena and buffers grow |
| C44 | `AnyErr.v`: two runs of the parser in two arbitrary environments, related by: same remaining text, equally many remembered parameters, all remembered names are name nodes; handles that the parser looks at again point at nodes of the same variant with the same optional parts (`tag`), qualified names have components related one by one, and a conversion operator that a declarator completes was made by that declarator (frame condition `St` on the older nodes). Printing fails only with `OutOfMemory` (`ow_output`). `Decide.v`: the theorems, and an example for each of the three exceptions. |
| C45 | `Alike.v`, `AlikeParse.v`: two runs of the printer and of the whole parser on texts whose characters are related pairwise by a relation the demangler cannot see through (equal below U+0100, same UTF-8 length, same class, equality reflected); same outcome, related texts and node graphs. `Opaque.v` instantiates the relation with a renaming, and with the identity under two Unicode tables; examples show that each hypothesis is needed |
| C46 | `Lines.v`: the relation of `Alike.v` taken as the equality of characters that are printable or in the input (so every literal the printer writes is checked to be printable); model of `examples/undecorate_name.rs` (argument parsing by `clap` and a failing standard output are not modelled) |
| C47 | `Realloc.v`: every printing function only appends, grows the capacity only when the pieces written do not fit (`Pieces.v`: a text is written piece by piece, and the pieces before a failing one have been written), and writes the same bytes whatever the capacity; then over histories by induction |
| C48 | `ByteString.v`: a second model of `mangled_string.rs`, on bytes, with the primitives of `core::str` it calls (boundaries, slicing, unvalidated forward and backward decoding, counting); each method on an encoded text simulates the method of `MString.v`, hence every client of the cursor does (induction on the client) |
| C49 | `Machine.v`: every leaf function with arithmetic, casts or `unsafe` once more, with overflow-checked fixed-width operations and explicit preconditions; each equals the function of the model on every state (so putting them in its place changes no result, and C01 excludes `Panic`) |
| C50 | `AllNames.v`: on `Show.v`, by induction on types: the names of a type are printed, without overlap, around the declared name; lifted to declarations of `Grammar.v` and, through C33, to every accepted text. `InnerNames.v`: what a component that is a template instance is made of (`spells`, with the instance's derivation in `Grammar.v`), down to any depth; where a text mentions names it mentions, without overlap, what they are made of |
| C51 | `Wording.v`: on `Show.v`, by induction on types: every text is made of the names of the type, each used once or hidden by a flag, and of words and numbers (`spelled`); lifted to declarations as in C50. A count of characters follows. `Whole.v`: the same for the accepted forms that are no declaration, and that with string literals these are all (C33) |

"Up to 1638 characters": theorems of the form `demangles_to` state the exact result for every text; only for texts of more
than 1638 characters do they leave open that the node budget is exceeded (`MaliciousInput`); defect theorems, which allow any
continuation, leave it open when the defective part has more than 1024 and the whole text more than 1638 characters.

## Facts about the code found on the way
* NO_TAG_SPECIFIER and the other flags can turn a valid symbol into `InvalidBackRef` when templates are involved (C22, example in `Suppress.v`).
* A type-info name can gain a space under a suppression flag (C29).
* NAME_ONLY still prints `noexcept`; it prints the front part but not the back part of a function-pointer return type.
* Private this-adjusting thunks are not called `virtual`.
* Under NO_MS_KEYWORDS `__restrict` leaves its separator behind.
* An unknown calling-convention letter is accepted and prints nothing.
* Operator codes without a name (`__R`, `_Q`, ..., and special-symbol codes inside scopes) are accepted and print an empty identifier.
* An identifier may itself start with `?` (`?x@`, not `?$`) where a type name is expected; it is an ordinary name then.
* An MD5 name absorbs a following `??_R4@`.
* No space follows the name of a type that ends in `_`: `?_x@@3VA_@@A` and `?x@@3VA__@@A` both give `class A__x`. A reference to a reference prints like an rvalue reference (`int &&x`) (examples in `Distinct.v`).
* Recursion depth is linear in the input with no constant bound (C03).

## Seeded bugs
`tools/mutate.py` applies an edit to one definition in a scratch copy, rebuilds, admits each broken proof in that copy only and asks
`Print Assumptions` which manifest theorems rested on a broken proof.  `seeded/LOG.jsonl` has one line per edit
(`proofs_broken`: proofs that failed directly; `theorems_failed`: manifest theorems that failed or rest on one that did).
