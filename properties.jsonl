{"id": "C01", "title": "Demangling never panics", "statement": "For every input string and every flag word, demangle and demangle_into return Ok or Err: no out-of-range handle or slice, no failed expect on a node kind / missing name / missing affinity, no arithmetic underflow of the character counter, and no violated precondition of an unchecked (unsafe) access.", "quantifier": "all &str inputs, all 16-bit flag words, all prior buffers", "why_tests_cant": "The set of inputs is infinite and the node graph is built and mutated through untyped handles; the fuzz target can only sample it.", "anchors": ["src/demangler.rs: Demangler::parse_into, do_parse", "src/cache.rs: NodeHandle::resolve/resolve_mut", "src/nodes/derived.rs: expect() calls", "src/mangled_string.rs: MangledString"]}
{"id": "C02", "title": "Demangling always terminates, with recursion depth linear in the input", "statement": "For every input and flags the call finishes; the depth of nested parsing never exceeds the number of input characters plus one, every parsing loop runs at most once per input character, and printing never revisits a node on the current path (the node graph is acyclic although nodes are mutated after being linked).", "quantifier": "all inputs and flags", "why_tests_cant": "Non-termination cannot be observed by a test and acyclicity under mutation is a history property.", "anchors": ["src/demangler.rs: demangle_type, demangle_template_parameter_list, demangle_name_scope_chain, demangle_function_parameter_list", "src/nodes/derived.rs: output"]}
{"id": "C03", "title": "Nesting depth has no constant bound", "statement": "The node budget does not bound recursion: for every depth d there is an input of length linear in d whose parsing nests deeper than d before any node of the nest is counted, so no constant stack bound holds (callers must bound the input length themselves).", "quantifier": "all depths d", "why_tests_cant": "Needs an argument for every d; a test only sees one stack size.", "anchors": ["src/demangler.rs: demangle_type, demangle_pointer_type", "src/cache.rs: NodeCache::intern"]}
{"id": "C04", "title": "Output size bound", "statement": "Whenever demangle returns Ok, the result is shorter than 2^20 bytes.", "quantifier": "all inputs and flags", "why_tests_cant": "Back-references expand exponentially; only an invariant over all writes shows the bound is never passed.", "anchors": ["src/demangler.rs: writing::BufWriter::write"]}
{"id": "C05", "title": "Node budget", "statement": "A successful demangle has built at most 2048 nodes; an input needing more is rejected with MaliciousInput. In particular a function with n one-letter parameters is accepted exactly up to the budget and rejected with MaliciousInput for every larger n.", "quantifier": "all inputs; all parameter counts n", "why_tests_cant": "Exact boundary for unboundedly many n, and the invariant over all histories of interning.", "anchors": ["src/cache.rs: NodeCache::intern"]}
{"id": "C06", "title": "Output is valid UTF-8", "statement": "The result of a successful call is the UTF-8 encoding of a sequence of Unicode scalar values, and Error::Utf8Error is never returned.", "quantifier": "all valid-UTF-8 inputs and flags", "why_tests_cant": "Byte-offset slicing, byte-wise buffers and multi-byte names interact for every input.", "anchors": ["src/demangler.rs: parse_into, memorize_identifier, demangle_locally_scoped_name_piece, demangle_string_literal", "src/mangled_string.rs: find_char, try_consume_n_bytes"]}
{"id": "C07", "title": "No invented characters", "statement": "Every character of a successful result is ASCII or occurs in the input; in particular ASCII input gives ASCII output.", "quantifier": "all inputs and flags", "why_tests_cant": "Quantifies over all inputs, including numeric escapes in string literals.", "anchors": ["src/demangler.rs", "src/nodes/derived.rs"]}
{"id": "C08", "title": "demangle_into does not depend on the buffer and agrees with demangle", "statement": "demangle_into(s, f, buf) returns the same outcome for every previous content and capacity of buf, on Ok buf holds exactly the string demangle(s, f) returns, and on Err demangle(s, f) returns the same error. Neither result depends on how much memory the allocator reserves when a buffer grows.", "quantifier": "all inputs, flags, and previous buffers", "why_tests_cant": "All previous buffer states.", "anchors": ["src/lib.rs: demangle, demangle_into", "src/demangler.rs: parse_into"]}
{"id": "C09", "title": "Failure leaves an empty buffer with its allocation", "statement": "When demangle_into fails the buffer is empty afterwards and its capacity is not smaller than before; on success too, capacity never shrinks.", "quantifier": "all inputs, flags, previous buffers", "why_tests_cant": "Failure can strike during parsing, at any write of printing, or at the final UTF-8 check.", "anchors": ["src/demangler.rs: parse_into (safe_restore_buffer)"]}
{"id": "C10", "title": "Inputs that are not symbols are rejected", "statement": "Any input that starts with neither '?' nor '.' (including the empty string) yields Err(Io(UnexpectedEof)) under every flag word.", "quantifier": "all such inputs, all flags", "why_tests_cant": "Infinite input set.", "anchors": ["src/demangler.rs: do_parse"]}
{"id": "C11", "title": "MD5 names are passed through", "statement": "For every h without '@', an input '??@' h '@' rest demangles, under every flag word, to '??@' h '@' (plus '??_R4@' when rest starts with it), independent of the rest; without a terminating '@' the input is rejected with InvalidMd5Name.", "quantifier": "all h, rest, flags", "why_tests_cant": "All names, including non-ASCII ones where byte offsets differ from character offsets.", "anchors": ["src/demangler.rs: demangle_md5_name"]}
{"id": "C12", "title": "Number encoding", "statement": "Every 64-bit value and sign has an encoding that demangles back to exactly that number wherever a number is printed (integer template arguments); encodings longer than 64 bits denote the value modulo 2^64.", "quantifier": "all u64 values, both signs, all digit strings of any length", "why_tests_cant": "2^64 values and unbounded digit strings.", "anchors": ["src/demangler.rs: demangle_number, demangle_template_parameter_list"]}
{"id": "C13", "title": "Array dimensions", "statement": "An array type with any non-empty list of dimensions prints every dimension in order (a zero dimension as empty brackets); a zero or negative rank or negative dimension is rejected.", "quantifier": "all dimension lists", "why_tests_cant": "All ranks and dimensions.", "anchors": ["src/demangler.rs: demangle_array_type", "src/nodes/derived.rs: ArrayTypeNode"]}
{"id": "C14", "title": "String literals decode to the encoded text", "statement": "For every byte string within the limits, the encoded narrow string literal demangles to the quoted, C-escaped text without the terminator; and a literal whose declared length exceeds the encoded bytes is marked with '...'.", "quantifier": "all byte strings up to the 128-byte limit, all checksums", "why_tests_cant": "256^n strings.", "anchors": ["src/demangler.rs: demangle_string_literal, demangle_char_literal, guess_char_byte_size, decode_multi_byte_char, output_escaped_char"]}
{"id": "C15", "title": "String-literal output is printable ASCII", "statement": "Whatever bytes a string-literal symbol encodes, a successful result contains only printable ASCII characters.", "quantifier": "all inputs starting with '??_C', all flags", "why_tests_cant": "All encodings incl. non-ASCII input characters.", "anchors": ["src/demangler.rs: output_escaped_char", "src/nodes/derived.rs: EncodedStringLiteralNode"]}
{"id": "C16", "title": "Name back-references", "statement": "The first ten distinct names of a symbol are remembered in order of first appearance, each once; digit i denotes the i-th of them and a digit with no entry yields InvalidBackRef.", "quantifier": "all sequences of names, all digits", "why_tests_cant": "All histories of memorised names.", "anchors": ["src/demangler.rs: memorize_string, demangle_back_ref_name, BackrefContext"]}
{"id": "C17", "title": "Parameter back-references", "statement": "In a parameter list, digit i denotes the i-th remembered parameter type; only types spelled with more than one character are remembered, at most ten; a digit with no entry is rejected.", "quantifier": "all parameter lists", "why_tests_cant": "All histories of parameter lists.", "anchors": ["src/demangler.rs: demangle_function_parameter_list"]}
{"id": "C18", "title": "Template arguments have their own back-reference scope", "statement": "Names and parameters remembered inside a template argument list are not visible outside, those outside are not visible inside, and afterwards the outer table is unchanged except that the rendered instantiation itself may be appended.", "quantifier": "all states and all template instantiations", "why_tests_cant": "All nesting histories.", "anchors": ["src/demangler.rs: demangle_template_instantiation_name"]}
{"id": "C19", "title": "Unknown flag bits are ignored", "statement": "The result depends only on the ten defined flag bits.", "quantifier": "all inputs and all pairs of flag words agreeing on the defined bits", "why_tests_cant": "All inputs times 2^16 words.", "anchors": ["src/lib.rs: Flags"]}
{"id": "C20", "title": "NAME_ONLY subsumes the flags it implies", "statement": "Under NAME_ONLY, adding or removing NO_ACCESS_SPECIFIER, NO_MEMBER_TYPE, NO_TAG_SPECIFIER, NO_VARIABLE_TYPE and NO_THISTYPE changes nothing.", "quantifier": "all inputs and flags", "why_tests_cant": "All inputs.", "anchors": ["src/lib.rs: Flags", "src/nodes/derived.rs"]}
{"id": "C21", "title": "NO_MS_KEYWORDS subsumes NO_LEADING_UNDERSCORES and NO_CALLING_CONVENTION", "statement": "Under NO_MS_KEYWORDS, adding or removing NO_LEADING_UNDERSCORES or NO_CALLING_CONVENTION changes nothing.", "quantifier": "all inputs and flags", "why_tests_cant": "All inputs.", "anchors": ["src/lib.rs: Flags", "src/nodes/derived.rs", "src/nodes/enums.rs"]}
{"id": "C22", "title": "Flags are not purely presentational", "statement": "It does not hold that a flag only changes presentation: because back-reference entries for template instantiations are rendered with the caller's flags before being compared, there are symbols for which a flag changes which entity a back-reference denotes, or whether the symbol demangles at all.", "quantifier": "witnesses over inputs and flags", "why_tests_cant": "The counterexample lies in interaction of flags, rendering and de-duplication.", "anchors": ["src/demangler.rs: memorize_identifier, memorize_string"]}
{"id": "C23", "title": "How resource limits are reported", "statement": "Error::MaliciousInput is only reported for the node budget; exceeding the output limit is reported as Error::Io with kind OutOfMemory; the only other Io error is UnexpectedEof and it is only reported for a (nested) symbol that does not start with '?'.", "quantifier": "all inputs and flags", "why_tests_cant": "All error paths.", "anchors": ["src/demangler.rs: BufWriter::write, do_parse", "src/cache.rs: intern"]}
{"id": "C24", "title": "Variables round-trip", "statement": "For every variable declaration in the modelled C++ fragment (storage class, scoped name, type built from primitives, tags, pointers, references, arrays, function pointers with qualifiers), demangling its mangled form gives its C++ declaration.", "quantifier": "all declarations of the fragment within the size limits", "why_tests_cant": "Unbounded nesting of types and scopes.", "anchors": ["src/demangler.rs: demangle_variable_encoding, demangle_type", "src/nodes/derived.rs"]}
{"id": "C25", "title": "Functions round-trip", "statement": "For every function declaration in the fragment (access, static/virtual, calling convention, return type, parameter list, variadic, noexcept, this-qualifiers), demangling its mangled form gives its C++ declaration.", "quantifier": "all declarations of the fragment within the size limits", "why_tests_cant": "Unbounded parameter lists and nesting.", "anchors": ["src/demangler.rs: demangle_function_encoding, demangle_function_type", "src/nodes/derived.rs"]}
{"id": "C26", "title": "Operator and structor names", "statement": "For every class name and every operator code, the symbol prints the operator the code stands for; constructors and destructors print the name of the enclosing class.", "quantifier": "all class names, all operator codes", "why_tests_cant": "All names times all codes.", "anchors": ["src/demangler.rs: demangle_function_identifier_code_group, translate_intrinsic_function_code, demangle_fully_qualified_symbol_name", "src/nodes/derived.rs"]}
{"id": "C27", "title": "Trailing characters", "statement": "An ordinary variable or function symbol is decided by its prefix: appending characters after a complete symbol does not change the result; type-info names and RTTI type descriptors with trailing characters are rejected.", "quantifier": "all complete symbols and all suffixes", "why_tests_cant": "All suffixes.", "anchors": ["src/demangler.rs: do_parse, demangle_typeinfo_name, demangle_special_intrinsic"]}
{"id": "C28", "title": "Type-info names", "statement": "For every tag type with a scoped name, '.?A' encoding demangles to the type followed by the RTTI type descriptor marker, and any trailing text is rejected.", "quantifier": "all scoped names, all suffixes", "why_tests_cant": "All names.", "anchors": ["src/demangler.rs: demangle_typeinfo_name"]}
{"id": "C29", "title": "Suppression flags only remove text", "statement": "For symbols without template instantiations, adding suppression flags never makes demangling fail and only deletes characters from the result. The one exception is a type-info name (an input starting with '.'), which may gain a single space in front of its fixed ending `RTTI Type Descriptor Name'; with template instantiations neither half holds (examples in Suppress.v).", "quantifier": "all inputs without '?$', accepted or not by any grammar, all pairs of flag words f subset g", "why_tests_cant": "All inputs and flag pairs.", "anchors": ["src/lib.rs: Flags", "src/nodes/derived.rs"]}
{"id": "C30", "title": "Thunk offsets", "statement": "A this-adjusting thunk prints its adjustment; offsets are taken modulo 2^32.", "quantifier": "all i64 offsets, all names", "why_tests_cant": "2^64 values.", "anchors": ["src/demangler.rs: demangle_function_encoding", "src/nodes/derived.rs: ThunkSignatureNode"]}
{"id": "C31", "title": "Special tables", "statement": "vftable/vbtable/RTTI locator symbols print the class, the table name, qualifiers and, when given, the target class.", "quantifier": "all class names", "why_tests_cant": "All names.", "anchors": ["src/demangler.rs: demangle_special_table_symbol_node", "src/nodes/derived.rs: SpecialTableSymbolNode"]}
{"id": "C32", "title": "Anonymous namespaces", "statement": "An anonymous-namespace scope prints as `anonymous namespace' whatever its key, and its key takes a back-reference slot.", "quantifier": "all keys and names", "why_tests_cant": "All keys.", "anchors": ["src/demangler.rs: demangle_anonymous_namespace_name"]}
{"id": "C33", "title": "Accepts exactly the decorated names", "statement": "A text is accepted if and only if it is a well-formed decorated name (a symbol, MD5 name or string literal followed by anything, or a type-info name, type descriptor or guard that ends the text), and the result is the C++ text of that name; every other text is rejected with an error. A text has at most one reading.", "quantifier": "all strings, all flag words (the 'if' direction up to 1638 characters, beyond which the node budget may reject)", "why_tests_cant": "No finite set of rejected strings shows that nothing else is accepted.", "anchors": ["src/demangler.rs: parse_into, do_parse, demangle_*", "src/lib.rs: demangle"]}
{"id": "C34", "title": "Short names are never too complex", "statement": "No text of at most 1638 characters is rejected with MaliciousInput; for any node budget, a text is rejected for complexity only if it is longer than four fifths of the budget. An accepted text builds fewer than 5/4 nodes per character read.", "quantifier": "all strings, all flag words, all node budgets", "why_tests_cant": "The worst number of nodes per character over all texts is a universal bound; sampling only gives lower estimates.", "anchors": ["src/cache.rs: NodeCache::intern (limit 1 << 11)", "src/demangler.rs: demangle_*"]}
{"id": "C35", "title": "A text has one reading", "statement": "No text has two meanings: whatever its length, all ways to read it as a decorated name give the same C++ text. A symbol delimits itself: of two symbols that begin the same text neither is longer, so no symbol is a proper prefix of another and its end does not depend on what follows.", "quantifier": "all strings of any length, all flag words, all pairs of readings", "why_tests_cant": "Ambiguity between two of the infinitely many derivations can hide in any combination of forms.", "anchors": ["src/demangler.rs: do_parse, demangle_*", "src/lib.rs: demangle"]}
{"id": "C36", "title": "Flags never decide acceptance", "statement": "For an input without template instantiations, the flags choose only what is shown: under any two flag words the call succeeds for both or fails for both with the same error, unless one of the two ran into the output limit (Io OutOfMemory). (With template instantiations this is false of the code: hiding tag keywords merges two remembered names and a later reference fails.)", "quantifier": "all strings without ?$, all pairs of flag words, all environments", "why_tests_cant": "Flags alter the text of scopes rendered in the middle of parsing; every combination of 2^16 flag words and of inputs would need trying.", "anchors": ["src/demangler.rs: demangle_locally_scoped_name_piece, memorize_identifier, parse", "src/lib.rs: demangle, Flags"]}
{"id": "C37", "title": "Brackets in demangled text match", "statement": "Without NAME_ONLY, if the input contains none of the characters ()[]{}\" then in the text returned the round, square and curly brackets match and nest (those inside string literals aside). If moreover the input contains neither < nor > nor the code of an operator spelled with one, angle brackets match and nest as well. (With NAME_ONLY this is false of the code: the closing half of a function pointer returned by a function pointer is lost.)", "quantifier": "all strings, all environments and flag words without NAME_ONLY", "why_tests_cant": "Declarators are printed in two halves around a name, nested to any depth and through back references, scopes and template arguments; whether the halves always meet is a property of every derivation.", "anchors": ["src/nodes/derived.rs: PointerTypeNode, FunctionSignatureNode, ArrayTypeNode, TemplateParameterReferenceNode", "src/nodes/mod.rs: WriteableTypeNode", "src/lib.rs: demangle"]}
{"id": "C38", "title": "Printing effort is paid for by the text", "statement": "Printing the symbol an input was parsed into visits at most (5*|input|+3)*(|text|+1) nodes, although nodes are shared through back references and the number of paths through the node graph can be exponential; when the text is cut off at the 2^20-byte output limit, the visits made until then are at most (5*|input|+3)*(2^20+2049)+1, and in any case at most 8196*(2^20+2049)+1.", "quantifier": "all strings that parse, all environments and flag words", "why_tests_cant": "The claim excludes every adversarial sharing pattern: a pattern whose repeated visits write nothing would take exponential time without ever reaching the output limit, and only an argument over all node graphs shows there is none.", "anchors": ["src/demangler.rs: BufWriter::write, Demangler::parse", "src/nodes/derived.rs: output, output_pre, output_post of every node", "src/lib.rs: demangle_into"]}
{"id": "C39", "title": "Which errors can be reported", "statement": "Whatever the input and the flags, a failing call reports one of 39 errors (36 syntactic ones, Io(UnexpectedEof), Io(OutOfMemory) and MaliciousInput), and each of these 39 is reported for some input under every flag word. The other values of the error type - InvalidFunctionType, InvalidLocallyScopedNamePiece, InvalidMemberPointerType, InvalidPointerCVQualifiers, InvalidPointerType, InvalidTagUniqueName, InvalidVariableStorageClass and the UTF-8 error - are never reported by either entry point.", "quantifier": "all strings, environments, flag words and initial buffers; all error values", "why_tests_cant": "That an error value never occurs is a statement about every input: it holds because a look-ahead elsewhere has already excluded the case, which tests can only fail to refute.", "anchors": ["src/lib.rs: Error, demangle, demangle_into", "src/demangler.rs: Demangler::parse, demangle_type, demangle_member_pointer_type, demangle_variable_encoding, demangle_locally_scoped_name_piece"]}
{"id": "C40", "title": "The text tells declarations apart", "statement": "With no flags set: when two symbols of variables or functions demangle to the same text, they declare the same entity - same qualified name, access, static / virtual / extern \"C\", this-adjustment, calling convention, qualifiers of this, ref-qualifier, noexcept, parameter types, variadic marker and return or variable type. So the text can be read back unambiguously. This holds for every accepted spelling of a variable or function symbol, whatever follows it. Covered are the symbols whose types are C++ types (no pointer to a reference, no array of arrays except by dimensions, no parameter void) and whose names are words that are no C++ keyword, names of types not ending in '_' (there the code merges two names).", "quantifier": "all pairs of variable and function symbols over all types of any nesting depth, any names and parameter lists", "why_tests_cant": "Unambiguity is a statement about all pairs of inputs: the spaces, brackets and the order of declarators must separate every two types of any depth; tests compare each output with one expected text and never two outputs with each other.", "anchors": ["src/nodes/derived.rs: output_pre and output_post of the type nodes, FunctionSymbol, VariableSymbol", "src/lib.rs: demangle"]}
{"id": "C41", "title": "A short name can stand for an exponentially long text", "statement": "Neither the length of the input nor the node budget bounds the text: for every d there is an input of 10*d+9 ASCII characters whose text has at least 2^d characters under every flag word. With nodes enough (twice the length of the input), the input demangles to that text under every output limit above the length of the text, and under every other limit the call reports Io(OutOfMemory). With the limits of the code the same holds for inputs of this shape up to 1638 characters, so the output limit, and only it, stops those of 209 characters and more. Nor are back-references needed: a constructor repeats the name of its class, and the class may be local to another constructor, so 13*d+12 characters without a back-reference stand for at least 2^d bytes, with the same outcomes.", "quantifier": "all depths d, all flag words, all output limits and all node budgets of at least twice the input length", "why_tests_cant": "The claim ranges over all depths and all limits; a test sees one input under the one compiled-in limit, and cannot build a text of 2^162 characters to compare with.", "anchors": ["src/demangler.rs: demangle_template_instantiation_name, memorize_identifier, the writer limited to 2^20 bytes (lines 150-170)", "src/cache.rs: node budget"]}
{"id": "C42", "title": "What the suppression flags hide", "statement": "A suppression flag really hides what it names, at every depth of a type: two inputs whose declarations differ only in what the flags suppress give the same text (or both run over the output limit). NO_CALLING_CONVENTION hides all calling conventions, NO_TAG_SPECIFIER the kinds of tags, NO_ACCESS_SPECIFIER the access, NO_MEMBER_TYPE static / virtual / extern \"C\", NO_RETURN_TYPE all return types, NO_VARIABLE_TYPE the type of a variable, NO_THISTYPE the qualifiers and ref-qualifier of this, NO_MS_KEYWORDS calling conventions, __unaligned and the extended qualifiers of this, NAME_ONLY everything of a function but its name, its thunk adjustment and noexcept; __ptr64 and the qualifiers of custom types are never shown. (NO_MS_KEYWORDS does not hide __restrict on pointers: it leaves a space.)", "quantifier": "all flag words, all pairs of inputs that stand for variables, functions, thunks, tables, type descriptors or type names, over all types of any depth, with any text after them", "why_tests_cant": "Hiding is a statement about all pairs of inputs and every position in a type; a test compares one output with one expected text and cannot show that no other declaration leaks through a space, a bracket or a nested function pointer.", "anchors": ["src/lib.rs: Flags and its documentation", "src/nodes/derived.rs: output_pre and output_post of the type nodes, FunctionSymbol, VariableSymbol, SpecialTableSymbol", "src/nodes/mod.rs"]}
{"id": "C43", "title": "The number of operations of a call is linear in its input", "statement": "Parsing any input, accepted or rejected, takes at most 160*|input|+20 operations (looks at the text, attempts to consume, allocations of nodes, handles copied into the arena, resolutions and updates of nodes, table accesses, and their sequencing) and at most one internal rendering of a name per character; each such rendering prints a graph of at most 2048 nodes, writes at most 2^20 bytes and visits at most 4*(nodes+1) nodes per byte written (plus one). There are never more than 2049 renderings, writing at most 2049*2^20 bytes altogether, and the graph of an accepted input has at most 2048 nodes and holds at most as many handles as there were operations, so that memory too is linear. So parsing and printing together cost at most (|input|+1)*(8196*(2^20+2049)+161), a constant per character, and also at most 160*|input| plus a constant, for every input, although names, parameters and nested template instances are shared through back references. All searches for the end of a name ('@') or of the number of a local scope ('?') together, with the recounting of what they take, pass over at most 6*|input| characters. (An operation, or a visit of a node, otherwise counts once whatever it scans: a comparison of names, a UTF-8 check of the text written so far.)", "quantifier": "all strings, of any length and nesting; all environments and flag words; failing runs included", "why_tests_cant": "Timing tests sample inputs; the adversarial input that makes a parser re-read text, loop without consuming, or render the same exponential graph once per back reference is exactly the one not sampled.", "anchors": ["src/demangler.rs: every demangle_* function and loop, memorize_identifier, demangle_locally_scoped_name_piece, memorize_string", "src/cache.rs: NodeCache::intern", "src/nodes/derived.rs: output_pre, output_post"]}
{"id": "C44", "title": "What besides the text decides acceptance", "statement": "For every input, with or without template instantiations, and every two settings (flag words, Unicode tables, allocation policies): if neither call fails with InvalidBackRef, MaliciousInput or Io OutOfMemory, the two calls both succeed or both fail with the same error. So a malformed text is malformed under every setting (every other setting gives the same error or one of those three), and an input of at most 1638 characters that one setting accepts is accepted by every other, except for a missing name reference or too long an output. The same holds for any two node budgets and output limits.", "quantifier": "all strings, all pairs of environments and flag words, all limits", "why_tests_cant": "Flags change the names that are rendered and remembered in the middle of parsing, so the two runs hold different node graphs and tables; only an argument over all inputs and all pairs of settings shows that no choice of the parser depends on them.", "anchors": ["src/demangler.rs: parse, memorize_identifier, demangle_template_instantiation_name, demangle_declarator, demangle_encoded_symbol, demangle_fully_qualified_symbol_name", "src/lib.rs: demangle, Flags"]}
{"id": "C45", "title": "Characters beyond U+00FF are opaque", "statement": "Let r be a renaming of characters that keeps every character up to U+00FF, sends every other character of the input beyond U+00FF to a character of the same UTF-8 length and the same class (alphanumeric or not), and keeps different characters of the input different. Then demangling the renamed input gives the same verdict and the same error, and the text is exactly the renamed text; likewise for demangle_into with any buffers. In particular the outcome depends on the Unicode tables only through the classes of the input's own non-ASCII characters, and for an ASCII input not at all.", "quantifier": "all strings, all renamings with the stated properties, all flag words, all pairs of Unicode tables and allocation policies, all buffers", "why_tests_cant": "The demangler compares characters, measures them in bytes, slices strings at byte offsets, decodes char literals and asks for the class of the last printed character; that none of this looks at which character it is takes an argument over every input and every renaming.", "anchors": ["src/lib.rs: demangle, demangle_into", "src/demangler.rs: mangled_string, demangle_simple_string, demangle_char_literal, memorize_string, demangle_md5_name", "src/nodes/mod.rs: output_space_if_necessary"]}
{"id": "C46", "title": "No control characters are invented; one line in, one line out", "statement": "Every character of a demangled text is a printable ASCII character (U+0020 to U+007E) or a character of the input. So an input without a newline never gives a text with one, and the command-line example prints, for an argument of one line, exactly two lines: the argument, and the text demangle returns for it or the fixed message. Each of its ten options sets its own flag bit and no other.", "quantifier": "all strings, all flag words and environments, all option combinations", "why_tests_cant": "It has to hold for every input that is accepted, including string literals whose bytes are control characters and names rendered in the middle of parsing.", "anchors": ["src/lib.rs: demangle", "src/demangler.rs: output_escaped_char, demangle_locally_scoped_name_piece", "src/nodes/derived.rs: output, output_pre, output_post of every node", "examples/undecorate_name.rs: main"]}
{"id": "C47", "title": "A large enough buffer is not reallocated", "statement": "A successful demangle_into whose text fits the capacity of the buffer leaves the capacity as it is, and otherwise the capacity afterwards holds the text; a buffer of 2^20 bytes is never reallocated, whatever the input and the outcome. A buffer at least as large as some buffer was after the same call is not reallocated by that call, successful or not; so after any history of calls on one buffer, calls that occurred in the history never reallocate it again, in any order and number.", "quantifier": "all strings, flag words, allocation policies, ways in which write! hands over its text, initial buffers and histories of calls", "why_tests_cant": "It ranges over every history of calls on one buffer and every allocation policy of the standard library.", "anchors": ["src/lib.rs: demangle_into", "src/demangler.rs: BufWriter::write, Demangler::parse_into"]}
{"id": "C48", "title": "Reading the input never splits a character", "statement": "The input is stored as bytes and is read by consuming characters, comparing prefixes, searching and cutting at byte counts. For every valid UTF-8 input and every sequence of such reads, each chosen freely by the answers so far, no read panics or looks past the end of the input; every answer is the one the same read gives on the sequence of characters; every piece of text handed out is a whole number of characters; what is left is valid UTF-8 and the remembered number of characters is exact. A cut at a byte count is refused exactly when no whole number of leading characters has that many bytes.", "quantifier": "all strings of Unicode scalar values and all adaptive sequences of reads", "why_tests_cant": "Multi-byte characters can stand at every position of the input and every interleaving of reads must respect their boundaries.", "anchors": ["src/mangled_string.rs: MangledString (all methods)", "src/demangler.rs: demangle_md5_name"]}
{"id": "C49", "title": "Debug and release builds agree; every unsafe block is sound", "statement": "No integer operation the demangler executes overflows its type (u8, u16, u32, u64, i64, usize of 16 bits or more), no cast loses bits except the documented wrap-around of thunk offsets to 32 bits, and every unchecked operation (table lookups without bounds check, push onto the name table without capacity check, last character of a literal, characters and strings made without validation, non-maximal node index) is only reached when its precondition holds. So a build with overflow checks and a build without them return the same results and neither has undefined behaviour.", "quantifier": "all parser states and inputs, texts of any length a Rust text may have, addresses of any width from 16 bits", "why_tests_cant": "Overflow and undefined behaviour depend on extreme values, and release builds do not report them; tests that pass in one build profile say nothing about the other.", "anchors": ["src/demangler.rs: demangle_number, demangle_signed, demangle_char_literal, demangle_wchar_literal, memorize_string, translate_intrinsic_function_code, demangle_template_parameter_list, guess_char_byte_size, decode_multi_byte_char, output_escaped_char, demangle_md5_name, parse_into, BufWriter::write", "src/cache.rs: NodeCache::intern", "src/extensions.rs"]}
{"id": "C50", "title": "No name of a declaration is dropped", "statement": "Whenever a text is accepted, the answer contains every component of the qualified name it encodes and every name in the types it writes out (classes, structs, enums, classes of member pointers; in variable types, parameters, return types and targets of pointers, also where the text only refers back to an earlier parameter or name), without overlap, hence each at least as often as the declaration names it. The same holds for the names a template instance is made of: that of the template and those in its arguments (types, alias templates, addresses of variables and functions), and so on inside these. The names in return types are owed unless NO_RETURN_TYPE is set, those in types unless NO_VARIABLE_TYPE or NAME_ONLY is set; the qualified name is there under every set of flags.", "quantifier": "all accepted variables, functions, class tables with a target, initializers, type names and type descriptors; all flags; any text behind them", "why_tests_cant": "Types nest without bound and each printing path has its own place for names; tests compare a few fixed outputs.", "anchors": ["src/lib.rs: demangle", "src/nodes/derived.rs: output_pre, output_post", "src/nodes/intermediate.rs: WriteableTypeNode", "src/demangler.rs: demangle_type, demangle_function_parameter_list, demangle_name_scope_chain"]}
{"id": "C51", "title": "Nothing is invented in an answer", "statement": "Whenever a text is accepted that is no string literal, the answer consists of the names of the declaration (and, for RTTI data, tables, guards, vcall thunks and MD5 names, the marker for what they are), decimal numbers and words of a fixed list (C++ keywords, calling conventions, punctuation, the demangler's own markers) and nothing else. Each name is printed at most as often as the declaration writes it, under every set of flags, and exactly as often when none of NAME_ONLY, NO_RETURN_TYPE and NO_VARIABLE_TYPE is set. Hence a character that is no digit and occurs in no word of the list is in the answer exactly as often as in the names (at most as often under these flags): no text of another name, of an earlier call or of the undecoded rest leaks into the answer.", "quantifier": "all accepted texts but string literals; all flags; any text behind them", "why_tests_cant": "Types nest without bound and every printing path writes its own fragments; tests compare a few fixed outputs.", "anchors": ["src/lib.rs: demangle", "src/nodes/derived.rs: output_pre, output_post", "src/nodes/intermediate.rs: WriteableTypeNode"]}
