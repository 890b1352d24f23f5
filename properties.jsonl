{"id": "C01", "title": "Varint round trip", "statement": "Encoding any unsigned 64-bit number with cs_varint_encode into a large enough buffer and decoding it with cs_varint_decode (whatever bytes follow it in the buffer) returns the same number and exactly the number of bytes written; that number equals cs_varint_llen and is between 1 and 10.", "quantifier": "every 64-bit number and every trailing byte sequence", "why_tests_cant": "2^64 numbers times unbounded suffixes; bytecode operands and string lengths all rely on it", "anchors": ["src/common/cs_varint.c:cs_varint_encode", "src/common/cs_varint.c:cs_varint_decode", "src/common/cs_varint.c:cs_varint_llen"]}
{"id": "C02", "title": "Varint decoding is bounded and injective", "statement": "cs_varint_decode never reads at or past buf_size, succeeds exactly when a terminating byte occurs in the first min(buf_size,10) bytes (or ten bytes are available), and two numbers with one encoding being a prefix of the other's are equal, so a sequence of varints decodes in only one way.", "quantifier": "every buffer, every size, every pair of numbers", "why_tests_cant": "unbounded set of buffers", "anchors": ["src/common/cs_varint.c:cs_varint_decode"]}
{"id": "C03", "title": "Growable buffer behaves as a byte list", "statement": "Any sequence of mbuf operations (init, append, insert, remove, clear, trim, resize) with any pattern of allocation failures behaves as the same sequence on a plain byte list: a failed operation reports 0 and changes nothing, a successful one inserts exactly the given bytes, and len <= size always.", "quantifier": "every operation sequence, every data, every pattern of realloc failures", "why_tests_cant": "histories are unbounded, and allocation failures cannot be enumerated by tests", "anchors": ["src/common/mbuf.c:mbuf_insert", "src/common/mbuf.c:mbuf_resize", "src/common/mbuf.c:mbuf_remove"]}
{"id": "C04", "title": "Numbers survive boxing", "statement": "For every double, mjs_get_double(mjs_mk_number(d)) is the same bit pattern unless d is a NaN, and every NaN becomes the one JS NaN; the boxed number is recognised as a number and as nothing else.", "quantifier": "every 64-bit floating-point bit pattern", "why_tests_cant": "2^64 patterns, NaN payloads overlap with the tags of other types", "anchors": ["src/mjs_primitive.c:mjs_mk_number", "src/mjs_primitive.c:mjs_get_double", "src/mjs_primitive.c:mjs_is_number"]}
{"id": "C05", "title": "Type predicates are mutually exclusive", "statement": "No 64-bit value satisfies two of mjs_is_number, mjs_is_boolean, mjs_is_null, mjs_is_undefined, mjs_is_string, mjs_is_object, mjs_is_foreign, mjs_is_function, mjs_is_ffi_sig; every value the constructors can build satisfies exactly one, the expected one.", "quantifier": "every 64-bit value; every constructor argument", "why_tests_cant": "2^64 values", "anchors": ["src/mjs_core.h:MAKE_TAG", "src/mjs_primitive.c", "src/mjs_string.c:mjs_is_string", "src/mjs_object.c:mjs_is_object"]}
{"id": "C06", "title": "Foreign pointers round trip below 2^48", "statement": "mjs_get_ptr(mjs_mk_foreign(p)) = p and no error is raised for every pointer below 2^48; a pointer whose top 16 bits are neither all zero nor all one raises a type error. The header's promise that sign-extended pointers such as (void*)-1 round trip is false: they come back truncated, without an error.", "quantifier": "every 64-bit pointer", "why_tests_cant": "2^64 pointers", "anchors": ["src/mjs_primitive.c:mjs_mk_foreign", "src/mjs_primitive.c:mjs_get_ptr", "src/mjs_primitive_public.h:mjs_mk_foreign"]}
{"id": "C07", "title": "Strings round trip in every representation", "statement": "mjs_get_string of the value returned by mjs_mk_string (copying) yields exactly the given bytes and length, for every length and content including NULs, whichever of the three layouts (inline up to 4, inline 5, heap) is chosen, and the result is a string and followed in memory by a NUL.", "quantifier": "every byte string that fits in the 48-bit heap, every engine string heap", "why_tests_cant": "unbounded lengths and contents; layout boundaries at 4/5/6 bytes", "anchors": ["src/mjs_string.c:mjs_mk_string", "src/mjs_string.c:mjs_get_string", "src/mjs_string.c:embed_string"]}
{"id": "C08", "title": "Existing strings are not disturbed by new ones", "statement": "Creating any further strings leaves the content of every previously created string unchanged (until a garbage collection, see C25).", "quantifier": "every sequence of string creations", "why_tests_cant": "histories of any length", "anchors": ["src/mjs_string.c:mjs_mk_string", "src/mjs_string.c:embed_string"]}
{"id": "C09", "title": "String comparison decides byte equality", "statement": "Two JS strings compare equal with === exactly when they hold the same bytes, whatever their representations (inline, heap, foreign); ordering of strings of different length is by length.", "quantifier": "every pair of string values in every valid heap", "why_tests_cant": "unbounded contents and representation pairs", "anchors": ["src/mjs_string.c:s_cmp", "src/mjs_exec.c:check_equal"]}
{"id": "C10", "title": "Concatenation", "statement": "a + b for strings yields a string whose bytes are those of a followed by those of b, and leaves a, b and all other strings unchanged, for every combination of representations.", "quantifier": "every pair of strings, every heap", "why_tests_cant": "the result may switch layout at 4, 5 and 6 bytes; buffers move during the operation", "anchors": ["src/mjs_string.c:s_concat"]}
{"id": "C11", "title": "slice", "statement": "s.slice(b[,e]) yields the substring between the clamped, negative-from-end indices, never reading outside s.", "quantifier": "every string, every pair of int indices", "why_tests_cant": "unbounded", "anchors": ["src/mjs_string.c:mjs_string_slice", "src/mjs_util.c:mjs_normalize_idx"]}
{"id": "C12", "title": "indexOf finds the first occurrence", "statement": "s.indexOf(t[,from]) returns the least index >= from at which t occurs in s and -1 exactly when there is none, and never reads outside either string.", "quantifier": "every pair of strings and start index", "why_tests_cant": "unbounded", "anchors": ["src/mjs_string.c:mjs_string_index_of", "src/common/mg_str.c:mg_strstr"]}
{"id": "C13", "title": "Character access", "statement": "s.at(i) (charCodeAt) returns the byte at the normalised index or undefined when there is none; s[i] yields the one-byte string at i; s.length is the byte length. Indices are reduced modulo 2^32 by s[i] for digit-string keys: s['4294967296'] is s[0].", "quantifier": "every string and index", "why_tests_cant": "unbounded; the wrap-around needs a key no test uses", "anchors": ["src/mjs_string.c:mjs_string_char_code_at", "src/mjs_exec.c:getprop_builtin_string"]}
{"id": "C14", "title": "String literal escapes", "statement": "The length computed by the first unescape pass equals the number of bytes written by the second for every literal body, so the emitted literal is never overrun; a body without backslashes is copied verbatim; escaping any byte string with \\xNN escapes and unescaping gives it back.", "quantifier": "every literal body", "why_tests_cant": "unbounded inputs, two passes over the same text must agree", "anchors": ["src/mjs_string.c:unescape", "src/mjs_string.c:embed_string"]}
{"id": "C15", "title": "Objects are finite maps", "statement": "For names that are not aliased by the engine's name comparison, mjs_set then mjs_get returns the value set; other properties keep their values; mjs_del removes exactly the named property and reports -1 and changes nothing if absent; at most one property per name ever exists.", "quantifier": "every object, every history of set/get/del, every name without NUL bytes", "why_tests_cant": "unbounded histories and objects", "anchors": ["src/mjs_object.c:mjs_get_own_property", "src/mjs_object.c:mjs_set_internal", "src/mjs_object.c:mjs_del"]}
{"id": "C16", "title": "Names with NUL bytes alias", "statement": "The map property fails for names of 6 or more bytes with an embedded NUL: two different names of equal length that agree up to their first NUL denote the same property.", "quantifier": "existential: a concrete witness (and all such pairs)", "why_tests_cant": "needs a name no test uses", "anchors": ["src/mjs_string.c:mjs_strcmp", "src/mjs_object.c:mjs_get_own_property"]}
{"id": "C17", "title": "Enumeration visits every own property once", "statement": "Iterating with mjs_next from MJS_UNDEFINED until MJS_UNDEFINED visits each own property exactly once, newest first, and terminates.", "quantifier": "every object", "why_tests_cant": "unbounded objects", "anchors": ["src/mjs_object.c:mjs_next"]}
{"id": "C18", "title": "Prototype lookup", "statement": "mjs_get_v_proto returns the own value if there is one, else the value found along the __p chain, else undefined, for every finite chain; on a cyclic chain with the key absent it never terminates.", "quantifier": "every object graph", "why_tests_cant": "chains of any length; non-termination cannot be observed by a test", "anchors": ["src/mjs_object.c:mjs_get_v_proto"]}
{"id": "C19", "title": "Array length is largest index plus one", "statement": "mjs_array_length is one more than the largest property name that strtoul reads in full as an index below 2^32-1 (leading blanks, a sign and leading zeros included), and 0 if there is none, whatever the insertion order and other properties.", "quantifier": "every object", "why_tests_cant": "unbounded", "anchors": ["src/mjs_array.c:mjs_array_length", "src/mjs_string.c:cstr_to_ulong"]}
{"id": "C20", "title": "Array push and index", "statement": "After pushing values v1..vn on an empty array its length is n and element i is v(i+1); pushing changes no existing element.", "quantifier": "every list of values below 2^32-1 elements", "why_tests_cant": "unbounded sequences", "anchors": ["src/mjs_array.c:mjs_array_push", "src/mjs_array.c:mjs_array_get", "src/mjs_array.c:mjs_array_set"]}
{"id": "C21", "title": "splice is list splice", "statement": "For a dense array, a.splice(start, del, items...) leaves the array equal to the list with the clamped range replaced by the items and returns the removed elements in order.", "quantifier": "every dense array, every int start/deleteCount, every item list", "why_tests_cant": "unbounded, in-place moves in two directions", "anchors": ["src/mjs_array.c:mjs_array_splice", "src/mjs_array.c:move_item"]}
{"id": "C22", "title": "Cell allocator never hands out a live cell", "statement": "Any history of arena allocations and collections keeps the free list acyclic, inside the arena's blocks and disjoint from every live cell; an allocation returns a zeroed cell that is neither live nor free afterwards.", "quantifier": "every history of allocate/sweep, every set of marked cells", "why_tests_cant": "unbounded histories", "anchors": ["src/mjs_gc.c:gc_alloc_cell", "src/mjs_gc.c:gc_new_block", "src/mjs_gc.c:gc_sweep"]}
{"id": "C23", "title": "Collection keeps everything reachable", "statement": "After mjs_gc every object and property reachable from the roots (scopes, value stack, call stack, this, owned variables, pending callbacks) is still allocated with the same fields, whatever the graph's shape (sharing and cycles included).", "quantifier": "every heap graph and root set", "why_tests_cant": "unbounded graphs, cycles and sharing", "anchors": ["src/mjs_gc.c:mjs_gc", "src/mjs_gc.c:gc_mark_object", "src/mjs_gc.c:gc_sweep"]}
{"id": "C24", "title": "Collection frees everything unreachable", "statement": "After mjs_gc every cell not reachable from the roots is free or its block has been released, and all mark bits are cleared.", "quantifier": "every heap graph and root set", "why_tests_cant": "unbounded graphs", "anchors": ["src/mjs_gc.c:gc_sweep", "src/mjs_gc.c:gc_mark_object"]}
{"id": "C25", "title": "String compaction preserves every live string", "statement": "After mjs_gc every reachable string value still reads as the same bytes although the heap was compacted and the value relocated; values that shared a string still do; dead strings are dropped and the heap is exactly the live strings.", "quantifier": "every string heap, every set of referencing slots, any sharing", "why_tests_cant": "pointer threading through value slots cannot be covered by examples", "anchors": ["src/mjs_gc.c:gc_mark_string", "src/mjs_gc.c:gc_compact_strings"]}
{"id": "C26", "title": "Argument stack is not a GC root", "statement": "The collector does not scan the argument stack, where the interpreter keeps the receivers of pending method calls: there is a well-formed heap holding an allocated object referenced from the argument stack only, on which mjs_gc frees that object and the next allocation returns its cell while the argument stack still refers to it.", "quantifier": "existential: a well-formed heap in which a needed value is freed", "why_tests_cant": "depends on when the collector runs", "anchors": ["src/mjs_gc.c:mjs_gc", "src/mjs_exec.c:mjs_execute (OP_ARGS)"]}
{"id": "C27", "title": "own/disown are a multiset of roots", "statement": "After any sequence of mjs_own and mjs_disown the set of rooted variables is the multiset difference; mjs_disown returns 1 and removes exactly one registration when present and 0 otherwise.", "quantifier": "every sequence of own/disown calls", "why_tests_cant": "unbounded histories", "anchors": ["src/mjs_core.c:mjs_own", "src/mjs_core.c:mjs_disown"]}
{"id": "C28", "title": "Raw memory access round trips", "statement": "mem.set then mem.get with the same size and endianness returns the value truncated to the size (sign-extended for the signed accessor), touches exactly the addressed bytes, and big- and little-endian accesses are byte reversals.", "quantifier": "every size 1..4, endianness, value and memory", "why_tests_cant": "2^32 values and unbounded memories", "anchors": ["src/mjs_dataview.c:mjs_mem_get_uint", "src/mjs_dataview.c:mjs_mem_set_uint", "src/mjs_dataview.c:mjs_mem_get_int"]}
{"id": "C29", "title": "Truthiness", "statement": "A value is falsy exactly when it is false, 0 or -0, NaN, undefined, null, the empty string - or, contrary to JavaScript, an imported FFI function.", "quantifier": "every 64-bit value", "why_tests_cant": "2^64 values", "anchors": ["src/mjs_conversion.c:mjs_to_boolean_v"]}
{"id": "C30", "title": "No implicit conversions in binary operators", "statement": "A binary operator yields a number only from two numbers, or from the difference of two pointers; a pointer plus or minus an integer is the pointer moved by that many bytes; + of two strings is their concatenation. Every other operand pair is a type error, and unless a pointer is involved nothing is computed and the result is undefined. On integers whose result is below 2^53 every operator and comparison gives exactly the mathematical result.", "quantifier": "every pair of values and operator", "why_tests_cant": "2^128 pairs", "anchors": ["src/mjs_exec.c:do_op", "src/mjs_exec.c:do_arith_op"]}
{"id": "C31", "title": "Strict equality", "statement": "=== is reflexive except on NaN and symmetric; strings are equal when their bytes are; other values only when their bit patterns are identical or one is null and the other a null foreign pointer. In particular 0 === -0 is false, which JavaScript says is true.", "quantifier": "every pair of values", "why_tests_cant": "2^128 pairs", "anchors": ["src/mjs_exec.c:check_equal"]}
{"id": "C32", "title": "Tokenizer always makes progress and stays inside the source", "statement": "pnext never reads beyond the terminating NUL, every token other than end-of-file consumes at least one byte, and tokenizing any source reaches end-of-file.", "quantifier": "every NUL-terminated source", "why_tests_cant": "all byte strings", "anchors": ["src/mjs_tok.c:pnext", "src/mjs_tok.c:longtok"]}
{"id": "C33", "title": "Maximal munch", "statement": "The operator token returned is the longest operator of the language that is a prefix of the remaining input, and a reserved word is recognised only as a whole identifier.", "quantifier": "every source suffix", "why_tests_cant": "all byte strings", "anchors": ["src/mjs_tok.c:longtok3", "src/mjs_tok.c:longtok4", "src/mjs_tok.c:is_reserved_word_token"]}
{"id": "C34", "title": "Back-patched jumps land where intended", "statement": "Inserting a jump offset of any size into generated code leaves every other byte unchanged and in order, and the decoded operand leads to the intended instruction, for nested jumps too. The line map is not adjusted, so line numbers after a long jump drift (refuted separately).", "quantifier": "every code buffer, offset and target", "why_tests_cant": "offset width changes move the code being jumped over", "anchors": ["src/mjs_bcode.c:mjs_bcode_insert_offset"]}
{"id": "C35", "title": "Compiled expressions compute their value", "statement": "For every expression built from numeric and other literals, parentheses, unary and binary operators with JavaScript precedence, parsing its source and executing the emitted bytecode pushes exactly the value of the expression tree and nothing else.", "quantifier": "every expression tree, any depth within the parser limit", "why_tests_cant": "unbounded expression trees, precedence interactions", "anchors": ["src/mjs_parser.c", "src/mjs_exec.c:mjs_execute", "src/mjs_exec.c:exec_expr"]}
{"id": "C36", "title": "Failed execution restores the engine", "statement": "If executing code raises an error, the value stack, call stack, argument stack, scope stack and loop stack are restored to the lengths they had before the call and the result is undefined. The one exception is code that ends normally with an empty value stack, where taking the result raises an internal error and nothing is restored; and this is never restored.", "quantifier": "every bytecode, every error point", "why_tests_cant": "every instruction is a possible error point", "anchors": ["src/mjs_exec.c:mjs_execute"]}
{"id": "C37", "title": "Call frames nest", "statement": "Pushing a call frame and restoring it brings back scopes, loop stack, this and the return address exactly; after a call of a JS function returns, the caller's scope chain and loop stack are what they were before the call.", "quantifier": "every engine state, any nesting", "why_tests_cant": "any nesting depth", "anchors": ["src/mjs_exec.c:call_stack_push_frame", "src/mjs_exec.c:call_stack_restore_frame"]}
{"id": "C38", "title": "Variable lookup is innermost-first", "statement": "A variable reference resolves to the innermost scope on the scope chain that has the name; undeclared names raise a reference error.", "quantifier": "every scope chain and name", "why_tests_cant": "any nesting depth", "anchors": ["src/mjs_exec.c:mjs_find_scope"]}
{"id": "C39", "title": "JSON string quoting", "statement": "JSON.stringify's quoting never writes beyond the buffer, reports the untruncated length, and for printable ASCII content the quoted text decodes to the original bytes. Bytes such as vertical tab produce text that JSON.parse rejects.", "quantifier": "every byte string and buffer size", "why_tests_cant": "unbounded", "anchors": ["src/mjs_json.c:snquote", "src/frozen/frozen.c:json_unescape"]}
{"id": "C40", "title": "Stringify terminates on cyclic values", "statement": "Serialising any value graph terminates; an object already being visited is printed as [Circular].", "quantifier": "every object graph, cyclic ones included", "why_tests_cant": "unbounded graphs; non-termination is unobservable by tests", "anchors": ["src/mjs_json.c:to_json_or_debug"]}
{"id": "C41", "title": "JSON parser consumes a bounded prefix", "statement": "json_walk never reads beyond the given length except inside strtod's/strncmp's argument, returns either a negative error code or the number of bytes consumed, at most the input length, and terminates on every input.", "quantifier": "every byte string", "why_tests_cant": "all byte strings", "anchors": ["src/frozen/frozen.c:json_walk", "src/frozen/frozen.c:json_parse_string"]}
{"id": "C42", "title": "FFI signature validation", "statement": "A signature accepted by mjs_ffi_sig_validate has an allowed return type, at most six arguments, one userdata in a callback, and in a function a userdata exactly when it takes a callback; a rejected one is marked invalid with a nonzero error. That there is at most one callback is not checked by this function but holds of every signature that ffi() returns.", "quantifier": "every signature structure", "why_tests_cant": "all combinations of types", "anchors": ["src/mjs_ffi.c:mjs_ffi_sig_validate"]}
{"id": "C43", "title": "Error messages nest outward", "statement": "mjs_prepend_errorf keeps the first error code and puts the new text in front of the old one separated by ': '; a fresh mjs_set_errorf replaces it.", "quantifier": "every sequence of error reports", "why_tests_cant": "histories of any length", "anchors": ["src/mjs_core.c:mjs_prepend_errorf", "src/mjs_core.c:mjs_set_errorf"]}
{"id": "C44", "title": "Formatted printing is bounded", "statement": "c_snprintf never writes more than the given size, always returns the length of the full text, and NUL-terminates when size > 0; %d/%u/%x print the exact value, width and padding.", "quantifier": "every format, argument list and size", "why_tests_cant": "unbounded", "anchors": ["src/common/str_util.c:c_vsnprintf", "src/common/str_util.c:c_itoa"]}
{"id": "C45", "title": "Hex codec round trips", "statement": "cs_from_hex(cs_to_hex(b)) = b for every byte string; base64 decoding inverts encoding.", "quantifier": "every byte string", "why_tests_cant": "unbounded", "anchors": ["src/common/str_util.c:cs_to_hex", "src/common/str_util.c:cs_from_hex", "src/frozen/frozen.c:b64enc"]}
{"id": "C46", "title": "Source line lookup", "statement": "The line reported for a bytecode offset is the line of the last map entry before it, for every well-formed map; offsets after the last entry are reported as line 1.", "quantifier": "every line map and offset", "why_tests_cant": "unbounded", "anchors": ["src/mjs_util.c:mjs_get_lineno_by_offset", "src/mjs_bcode.c:add_lineno_map_item"]}
{"id": "C47", "title": "Code lookup by offset", "statement": "For code committed in any number of parts, mjs_bcode_part_get_by_offset returns the unique part containing the offset, and nothing exactly when the offset is past the end.", "quantifier": "every sequence of commits and every offset", "why_tests_cant": "unbounded", "anchors": ["src/mjs_bcode.c:mjs_bcode_part_get_by_offset", "src/mjs_bcode.c:mjs_bcode_commit"]}
{"id": "C48", "title": "Index normalisation", "statement": "mjs_normalize_idx always returns a value in [0,size], maps negative indices from the end and is the identity on [0,size].", "quantifier": "every pair of ints with size >= 0", "why_tests_cant": "2^64 pairs", "anchors": ["src/mjs_util.c:mjs_normalize_idx"]}
{"id": "C49", "title": "Applying a C function leaks a call frame", "statement": "mjs_apply of a foreign function that succeeds leaves its call frame on the call stack, so the stacks are not restored.", "quantifier": "every state (the leak happens always)", "why_tests_cant": "visible only in later behaviour", "anchors": ["src/mjs_exec.c:mjs_apply"]}
{"id": "C50", "title": "Sequential blocks exhaust the nesting limit", "statement": "The parser's nesting counter is never decremented after a block, so a flat program with more than 512 consecutive blocks is rejected as too deeply nested.", "quantifier": "every program with n consecutive empty blocks", "why_tests_cant": "needs a program longer than any test", "anchors": ["src/mjs_parser.c:parse_block"]}
{"id": "C51", "title": "Applying a C function reads its result through a dangling pointer", "statement": "mjs_apply takes the address of the result slot before it pushes the arguments; when pushing them makes the value stack grow, the result is read through a pointer into the old buffer, so a call of a C function with such arguments has no defined result.", "quantifier": "every engine state, function and argument list that makes the stack grow", "why_tests_cant": "memory errors depend on the allocator and on the stack capacity", "anchors": ["src/mjs_exec.c:mjs_apply", "src/mjs_core.c:mjs_push"]}
{"id": "C52", "title": "ffi() is memory safe on any text", "statement": "Whatever text and resolver ffi() is given, it reads only inside the text and terminates; it yields a signature that can be called and has at most one callback, or an error with the signature invalid, or the process aborts (it does for some texts, e.g. a function pointer at the top).", "quantifier": "every byte string, every resolver", "why_tests_cant": "unbounded texts, recursive parsing with raw pointers", "anchors": ["src/mjs_ffi.c:mjs_parse_ffi_signature", "src/mjs_ffi.c:parse_cval_type", "src/mjs_ffi.c:find_paren", "src/mjs_ffi.c:find_closing_paren", "src/mjs_ffi.c:get_cb_impl_by_signature"]}
{"id": "C53", "title": "C declarations are read as written", "statement": "A well-formed C declaration with any spacing is accepted by ffi() exactly when its types are supported and the resolver knows its name, and the signature holds the declared types in order, the callback's types and the resolved address.", "quantifier": "every declaration, including callbacks, spacing and trailing text", "why_tests_cant": "unbounded texts", "anchors": ["src/mjs_ffi.c:mjs_parse_ffi_signature"]}
{"id": "C54", "title": "C functions receive the declared arguments", "statement": "A call of an imported function with values of the declared types calls it once with these arguments, each in a register of its own class, reports no error and returns its result; a callback argument is registered together with its userdata.", "quantifier": "every signature with a supported prototype, all values, every list of callbacks", "why_tests_cant": "all combinations of types and values", "anchors": ["src/mjs_ffi.c:mjs_ffi_call2", "src/ffi/ffi.c:ffi_call"]}
{"id": "C55", "title": "Unsupported prototypes are never called, silently", "statement": "If an imported function has double and float arguments, or more than three arguments of which one is floating point, a call of it succeeds without error although the C function is not called.", "quantifier": "every such signature and all values of the declared types", "why_tests_cant": "all combinations of types", "anchors": ["src/ffi/ffi.c:ffi_call", "src/mjs_ffi.c:mjs_ffi_call2"]}
{"id": "C56", "title": "Mixing float and double between arguments and result passes garbage", "statement": "If a function returns double and takes floats (or the other way around), all its arguments are passed as integer words, so the C function does not find its floating point arguments.", "quantifier": "every such signature and all values of the declared types", "why_tests_cant": "all combinations of types", "anchors": ["src/ffi/ffi.c:ffi_call"]}
{"id": "C57", "title": "Wrong number of arguments", "statement": "Calling an imported function with another number of arguments than declared calls nothing, changes no callback registration, sets a TypeError and yields undefined.", "quantifier": "every signature, every argument list", "why_tests_cant": "unbounded", "anchors": ["src/mjs_ffi.c:mjs_ffi_call2"]}
{"id": "C58", "title": "Wrongly typed int arguments do not prevent the call", "statement": "A value that is neither a number nor a boolean given for an int argument sets a TypeError, but the C function is called nevertheless, with 0.", "quantifier": "existential: a signature and values", "why_tests_cant": "error paths are rarely tested", "anchors": ["src/mjs_ffi.c:mjs_ffi_call2"]}
{"id": "C59", "title": "Callbacks receive what C passes", "statement": "When C calls a registered callback that has no double argument, or exactly two arguments, the JS function is called with the values that C passed, in order, and with its userdata; negative ints excepted.", "quantifier": "every callback type, all arguments, every list of callbacks, every string heap with room", "why_tests_cant": "all combinations of types and values, unbounded texts", "anchors": ["src/mjs_ffi.c:ffi_cb_impl_generic", "src/mjs_ffi.c:get_cb_impl_by_signature"]}
{"id": "C60", "title": "Negative ints in callbacks", "statement": "A negative int passed to a callback arrives as a large positive number.", "quantifier": "existential: an int; for every register content that holds it", "why_tests_cant": "depends on the contents of the upper half of a register", "anchors": ["src/mjs_ffi.c:ffi_cb_impl_generic"]}
{"id": "C61", "title": "Callbacks with a double among three arguments", "statement": "A callback of type (userdata, int, double) is accepted, but the arguments that reach the JS function are not those that C passed.", "quantifier": "existential: a callback type and arguments", "why_tests_cant": "depends on the calling convention", "anchors": ["src/mjs_ffi.c:get_cb_impl_by_signature", "src/mjs_ffi.c:ffi_cb_impl_wpd"]}
{"id": "C62", "title": "Reused callback keeps its first type", "statement": "When the same JS function and userdata are passed to a C function with another callback type, the registration of the first type is reused and the JS function gets arguments of the wrong type.", "quantifier": "existential: two signatures and a call sequence", "why_tests_cant": "needs a particular history of calls", "anchors": ["src/mjs_ffi.c:mjs_ffi_call2", "src/mjs_ffi.c:ffi_get_matching"]}
{"id": "C63", "title": "ffi_cb_free frees exactly one callback", "statement": "ffi_cb_free(f, u) of a JS function removes exactly the first registration for f and u and returns 1, or changes nothing and returns 0; registrations of foreign pointers and imported functions cannot be freed.", "quantifier": "every list of callbacks, every function and userdata", "why_tests_cant": "unbounded", "anchors": ["src/mjs_ffi.c:mjs_ffi_cb_free"]}
{"id": "C64", "title": "JSON documents are parsed as written", "statement": "JSON.parse of any JSON document (blanks before it, anything after it) yields a value that represents the document's tree: same numbers, strings, elements in order, members under their names; existing objects are not changed. Limits: the path of every value has at most 255 bytes, names are non-empty, escape-free and do not end in a full stop, code points in escapes are below 256, and a number that is the whole document is followed by another byte. Beyond each limit a wrong value, an abort or an overread occurs.", "quantifier": "every document tree within the limits, every layout, every heap with room", "why_tests_cant": "unbounded nesting and sizes", "anchors": ["src/mjs_json.c:mjs_json_parse", "src/mjs_json.c:frozen_cb", "src/frozen/frozen.c:json_parse_value"]}
{"id": "C65", "title": "Numbers have the text users expect", "statement": "Converting a number to a string gives the decimal numeral of an integer below 2^63 in magnitude, and for a fractional number the multiple of 1/1000000 nearest to it, halves to even, with six digits behind the point. Infinities and integers outside int64 make the conversion undefined; NaN is printed -nan; distinct numbers may share a text.", "quantifier": "every double", "why_tests_cant": "2^64 inputs; tests sample a few", "anchors": ["src/mjs_conversion.c:mjs_to_string", "src/mjs_util.c:mjs_jprintf"]}
{"id": "C66", "title": "JSON.stringify writes the text of the value", "statement": "JSON.stringify of a value gives a string holding exactly the text of its graph: members newest first and separated by commas, undefined, functions and foreign values left out of objects and null in arrays, strings quoted, holes null, a container met inside itself [Circular]. No object changes and the stack of visited values is left empty. Names are not escaped.", "quantifier": "every heap, every value graph whose text is shorter than 2^31", "why_tests_cant": "unbounded graphs and texts", "anchors": ["src/mjs_json.c:to_json_or_debug", "src/mjs_json.c:mjs_json_stringify", "src/mjs_json.c:mjs_op_json_stringify"]}
{"id": "C67", "title": "JSON round trip", "statement": "JSON.parse(JSON.stringify(v)) yields a fresh value representing the same tree as v with the members of each object in the opposite order, so two trips restore the order; existing objects are unchanged. This holds for every tree of null, booleans, integers below 2^63 and multiples of 1/1000000, UTF-8 strings without vertical tabs, arrays, and objects with distinct names that need no escapes, within the path limits of the parser. Minus zero and finer numbers do not survive.", "quantifier": "every heap, every acyclic value of that kind, any nesting", "why_tests_cant": "unbounded trees, all heaps", "anchors": ["src/mjs_json.c:mjs_op_json_stringify", "src/mjs_json.c:mjs_op_json_parse"]}
{"id": "C68", "title": "Every program of the grammar is accepted", "statement": "A source text that consists of the tokens of statements according to the grammar (let, expressions with all operators, assignments, increments, member access, calls, object and array literals, functions, blocks, if/else, while, for, for-in, break, continue, return) is accepted by the parser, and the code it gives is the code of the tree: the same program always yields the same code whatever blanks and comments separate the tokens.", "quantifier": "every source text, every tree, any nesting within the parser's own counter of 512", "why_tests_cant": "unbounded programs", "anchors": ["src/mjs_parser.c:mjs_parse"]}
{"id": "C69", "title": "Programs compute what the language says", "statement": "If the definitional interpreter of the language gives a program a value, then mjs_exec of its text ends without error, its result represents that value, and the variables and objects of the engine are those of the interpreter's final state; the stacks, this, and every object that the program cannot reach are as before. This covers loops with any number of rounds, recursion, methods with this, dynamic scoping, objects shared between variables, arrays with push and length, string indices and methods, for-in over the properties an object had at the start (newest first), break/continue/return.", "quantifier": "every program of the grammar, every engine state that represents an interpreter state, any number of steps", "why_tests_cant": "unbounded programs and executions", "anchors": ["src/mjs_exec.c:mjs_exec", "src/mjs_exec.c:mjs_execute", "src/mjs_parser.c:mjs_parse"]}
{"id": "C70", "title": "Sessions", "statement": "The same for any number of programs executed one after the other in one engine, starting with a new one: functions, objects and variables made by one program are there for the next, and every earlier result still represents its value at the end.", "quantifier": "every list of programs, every engine state, including a new engine", "why_tests_cant": "histories of any length", "anchors": ["src/mjs_exec.c:mjs_exec", "src/mjs_bcode.c:mjs_bcode_commit", "src/mjs_core.c:mjs_create"]}
{"id": "C71", "title": "C structures become objects", "statement": "mjs_struct_to_obj (s2o) turns a C structure described by a member table into a new object whose properties, in enumeration order, are the members in the order of the table, each showing exactly what lies in memory: integers of every width and sign, floats and doubles, booleans, texts, byte ranges, pointers, nested structures directly or through pointers to any depth; null pointers to structures give null, a null structure or table gives undefined, and all objects that existed before are unchanged.", "quantifier": "every memory, every set of tables (distinct names, no custom fields), every nesting depth, every heap with room", "why_tests_cant": "memories and nested tables are unbounded", "anchors": ["src/mjs_object.c:mjs_struct_to_obj", "src/mjs_builtin.c:mjs_s2o"]}
{"id": "C72", "title": "chr", "statement": "chr(n) is the one-byte string of n for integers 0 to 255, and null for larger integers below 2^32; for negative numbers and non-numbers the result is not defined (the conversion precedes the test).", "quantifier": "every string heap, every integer in the ranges", "why_tests_cant": "arbitrary engine states", "anchors": ["src/mjs_builtin.c:mjs_chr"]}
{"id": "C73", "title": "mkstr", "statement": "mkstr(ptr, offset, len, copy) gives the string of the len bytes at ptr + offset: with copy a snapshot that no later change of the memory affects, without it an alias that always shows what the memory contains. Wrong numbers or kinds of arguments are a type error and make no string; a length of 4294967295 acts as strlen.", "quantifier": "every memory, every later memory, pointer, offset and length below 2^31, every string heap", "why_tests_cant": "quantifies over all later memory contents", "anchors": ["src/mjs_string.c:mjs_mkstr"]}
{"id": "C74", "title": "C functions called by scripts", "statement": "A C function called by a script with n arguments and an object sees exactly these through mjs_nargs, mjs_arg and mjs_get_this (undefined beyond the last argument); what it returns replaces function and arguments on the caller's stack, and the caller's scopes, loops, call stack and this are as before, whatever it does to the heap, the memory and the error code. In particular the methods of strings and arrays receive the script's object and arguments.", "quantifier": "every C function, number of arguments, engine state and depth of stacks", "why_tests_cant": "arbitrary C functions and states", "anchors": ["src/mjs_core.c:mjs_nargs", "src/mjs_core.c:mjs_arg", "src/mjs_core.c:mjs_return", "src/mjs_exec.c:mjs_execute"]}
{"id": "C75", "title": "Memory through pointers", "statement": "p[n] = b on a foreign pointer writes the byte b at p + n, leaves every other byte alone and has the value b; p[n] reads that byte. A number of 256 or more is a type error and writes nothing. A negative index is undefined behaviour.", "quantifier": "every memory, pointer, index below 2^31 and engine state", "why_tests_cant": "all memories and addresses", "anchors": ["src/mjs_exec.c:exec_expr", "src/mjs_exec.c:getprop_builtin_foreign"]}
{"id": "C76", "title": "mjs_apply keeps this", "statement": "After mjs_apply, the engine's current this is what it was before, whatever function was called and whether or not it failed.", "quantifier": "every engine state, function, arguments, host", "why_tests_cant": "arbitrary code runs in between", "anchors": ["src/mjs_exec.c:mjs_apply"]}
{"id": "C77", "title": "Number literals and JSON numbers are read to the nearest double", "statement": "A number literal in a script, and a number in a text given to JSON.parse, means the IEEE double nearest to the exact value of the text; of two equally near ones the one with the even significand; a value beyond the largest double by half a unit or more means infinity.", "quantifier": "all decimal literals with optional fraction and exponent of any length, all hexadecimal literals below 2^64, and all JSON numbers with optional sign", "why_tests_cant": "There are infinitely many literals; errors in the last place show up only for rare digit patterns, halfway cases, subnormal results and overflow.", "anchors": ["src/mjs_parser.c:304 TOK_NUM", "src/mjs_exec.c:741 OP_PUSH_DBL", "src/mjs_tok.c:73 getnum", "src/mjs_json.c:359 JSON_TYPE_NUMBER"]}
{"id": "C78", "title": "Arithmetic of scripts is correctly rounded and comparison is exact", "statement": "For finite numbers a and b the script expressions a+b, a-b, a*b and a/b (b not zero) give the double nearest to the exact result, ties to even, and report no error; <, >, <=, >= compare the exact values; -a is exact.", "quantifier": "all pairs of finite doubles, including subnormal ones and results that overflow or underflow", "why_tests_cant": "There are 2^128 pairs of operands; rounding errors show up only on rare pairs.", "anchors": ["src/mjs_exec.c:99 do_arith_op", "src/mjs_exec.c:160 do_op", "src/mjs_exec.c:298 TOK_LT"]}
{"id": "C79", "title": "isNaN tells NaN from everything else", "statement": "isNaN(v) is true if v is the number NaN, whichever NaN bit pattern it was made from, and false for all other numbers and for values that are not numbers.", "quantifier": "all 64-bit patterns given to mjs_mk_number and all values of other types", "why_tests_cant": "There are 2^53 NaN patterns and 2^64 values.", "anchors": ["src/mjs_primitive.c:153 mjs_op_isnan", "src/mjs_primitive.c:26 mjs_mk_number"]}
{"id": "C80", "title": "Calling script functions from C", "statement": "A host that runs programs and calls functions they made with mjs_apply, in any order, gets from every call the value the function returns for the arguments and the this given (the function itself if it ends without a return statement, where a script gets undefined), sees all effects of the call in later programs and calls, and finds the engine's stacks, its current this and all earlier results unchanged.", "quantifier": "all sequences of well-formed programs and calls of functions made by them to which the interpreter of the language gives values, all engine states, while memory, code and stack sizes are in range", "why_tests_cant": "Programs, functions, arguments and their interleavings are unbounded.", "anchors": ["src/mjs_exec.c:1122 mjs_apply", "src/mjs_exec.c:550 mjs_execute", "src/mjs_exec.c:53 call_stack_restore_frame", "src/mjs_exec.c:771 OP_RETURN"]}
{"id": "C81", "title": "Failing programs stop where they fail", "statement": "A program that reads an undeclared variable, calls a value that is no function, applies an operator to operands it is not for, uses == or !=, reads or sets a property of a value without properties, or loops with for-in over such a value ends there, however deep in calls, blocks and loops: mjs_exec returns the code of that error and the result undefined, everything done before the failing operation stays done and nothing after it is done, and the engine's stacks are as they were, so that later programs run normally. The current value of this is not restored. mjs_apply of a function that fails so, or of a value that is no function, reports the error, gives undefined and restores this as well. No program both has a value and fails.", "quantifier": "all well-formed programs and calls that fail in one of these ways, all engine states, while memory, code and stack sizes are in range", "why_tests_cant": "Programs, nesting depths and the places where they fail are unbounded.", "anchors": ["src/mjs_exec.c:962 recovery after an error", "src/mjs_exec.c:1122 mjs_apply", "src/mjs_exec.c:30 call_stack_push_frame", "src/mjs_exec.c:206 op_assign", "src/mjs_exec.c:243 exec_expr", "src/mjs_exec.c:520 getprop_builtin"]}
{"id": "C82", "title": "A host that goes on after failures", "statement": "A host that runs programs and calls functions with mjs_exec and mjs_apply in any order, any of which may fail, and goes on: the error of every step is the one the language gives it, every result represents the value the language gives it, also at the end of the session, and later steps see exactly the effects of the earlier ones, including those of failed steps up to their failure.", "quantifier": "all sequences of well-formed programs and calls whose outcomes the language defines, all engine states, while memory, code and stack sizes are in range", "why_tests_cant": "Sessions, programs and the positions of the failures in them are unbounded.", "anchors": ["src/mjs_exec.c:995 mjs_exec_internal", "src/mjs_exec.c:1122 mjs_apply", "src/mjs_exec.c:962 recovery after an error"]}
{"id": "C83", "title": "A new engine and its names", "statement": "mjs_create gives an engine whose global object has exactly the built-in names (global, load, print, ffi, ffi_cb_free, mkstr, getMJS, die, gc, chr, s2o, JSON with parse and stringify, Object with create, NaN, isNaN), each with its value, with empty stacks and no error; programs run in it one after the other have the values the language gives them when started with these names.", "quantifier": "all addresses of C functions of 48 bits, all sequences of well-formed programs with values, while memory, code and stack sizes are in range", "why_tests_cant": "Programs and addresses are unbounded; that the state built by the initialisation is one the language theorems apply to is an invariant, not an output.", "anchors": ["src/mjs_core.c:72 mjs_create", "src/mjs_builtin.c:131 mjs_init_builtin"]}
{"id": "C84", "title": "Loading a file runs it", "statement": "load(path) of a file that was not loaded before runs its program in the scopes of the caller, or with the object given as second argument as innermost scope: the value of the call is that of the program, the effects are those of the program, and stacks and scopes are as before; if the program fails, load fails with its error and the effects up to there stay. The file counts as loaded then, with that outcome.", "quantifier": "all files whose programs have an outcome in the language, all engine states in the middle of an execution, while memory, code and stack sizes are in range", "why_tests_cant": "Files, states and nesting are unbounded; that the stacks of the running caller survive is a property of every state.", "anchors": ["src/mjs_builtin.c:51 mjs_load", "src/mjs_builtin.c:32 mjs_get_loaded_file_bcode", "src/mjs_exec.c:1083 mjs_exec_file"]}
{"id": "C85", "title": "Loading a file again", "statement": "load(path) of a file that is loaded and whose last execution succeeded does nothing and gives undefined; if its last execution failed or has not ended, or with an object as second argument, the program that was loaded is run again, as in C84, without being read or parsed again, and its outcome replaces the last one.", "quantifier": "as C84", "why_tests_cant": "Depends on the history of all executions in the engine.", "anchors": ["src/mjs_builtin.c:51 mjs_load", "src/mjs_builtin.c:32 mjs_get_loaded_file_bcode", "src/mjs_exec.c:1083 mjs_exec_file"]}
{"id": "C86", "title": "Files that cannot be loaded", "statement": "If the file cannot be read, or the parser rejects it, load fails with the file error or the error of the parser; nothing is executed, no object changes and nothing counts as loaded. Without a string as first argument load does nothing.", "quantifier": "all engine states, all files", "why_tests_cant": "States and files are unbounded.", "anchors": ["src/mjs_builtin.c:51 mjs_load", "src/mjs_builtin.c:32 mjs_get_loaded_file_bcode", "src/mjs_exec.c:1083 mjs_exec_file"]}
{"id": "C87", "title": "A loaded file is not run twice", "statement": "A file that was loaded without error, or is being executed, is not run again by load without a global object; a name that is no file is an error. (All false: see the theorems.)", "quantifier": "all sessions", "why_tests_cant": "The outcome depends on calls into the file by the host, and on cycles among files.", "anchors": ["src/mjs_builtin.c:51 mjs_load", "src/mjs_builtin.c:32 mjs_get_loaded_file_bcode", "src/mjs_exec.c:1083 mjs_exec_file"]}
{"id": "C88", "title": "Texts of values", "statement": "mjs_fprintf (and print) write exactly one text for a value: integers exactly and other numbers to six places, true, false, null, undefined, <array>, <object>, <foreign_ptr@address in hexadecimal>, <function@offset>, and strings byte by byte, bytes that are not printable ASCII as backslash, x and two hexadecimal digits. Every value has a text except numbers that are infinite or integral beyond 64 bits, whose printing is undefined.", "quantifier": "all values, string contents of any length, engine states", "why_tests_cant": "Any value and any string content; the numbers without a text are rare.", "anchors": ["src/mjs_util.c:47 mjs_jprintf", "src/mjs_util.c:91 mjs_fprintf"]}
{"id": "C89", "title": "mjs_sprintf stays in its buffer", "statement": "mjs_sprintf of a value with a non-empty text into a buffer of size n > 0 writes the first n-1 bytes of the text (all of it if shorter) and a terminating NUL, and changes no byte after that; with size 0 it writes nothing.", "quantifier": "all values, buffer sizes and buffer contents", "why_tests_cant": "The text is written in pieces of arbitrary length, each of which may be cut at any point.", "anchors": ["src/mjs_util.c:86 mjs_sprintf", "src/frozen/frozen.c:467 json_printer_buf"]}
{"id": "C90", "title": "print", "statement": "print(a, b, ...) writes the text of each argument followed by a space, then a newline, gives undefined, and leaves the stacks, the heap and the error as they were.", "quantifier": "all engine states and argument lists", "why_tests_cant": "Any number of arguments of any kind.", "anchors": ["src/mjs_builtin.c:18 mjs_print"]}
{"id": "C91", "title": "Texts identify values", "statement": "Different strings have different texts, the text of a string is different from those of other values, and mjs_sprintf always terminates the buffer. (All false: see the theorems.)", "quantifier": "all strings", "why_tests_cant": "Needs the strings that collide; the empty string is the only one that is not terminated.", "anchors": ["src/mjs_util.c:47 mjs_jprintf", "src/frozen/frozen.c:467 json_printer_buf"]}
{"id": "C92", "title": "The apply method", "statement": "f.apply(t, l) called by a script for a function f made by a script gives what a call of f by the host gives, with this being t and the elements of the array l as arguments (undefined where there is a hole; none if l is no array); it fails with the same error if that call fails. Afterwards this and the stacks are as before.", "quantifier": "all functions and states of the language, arrays of any length, any further arguments", "why_tests_cant": "The function runs arbitrary code inside the C function.", "anchors": ["src/mjs_exec.c:506 mjs_apply_", "src/mjs_exec.c:1122 mjs_apply"]}
{"id": "C93", "title": "Stack traces", "statement": "When an instruction fails, the trace that mjs_execute generates is one line \"  at FILE:LINE\" for the place before the index at which it stopped and one for each call that has not returned, innermost first, with the file name of the part the place is in and the line of the last map entry before it; calls from C have no line. The line named is not always the one that failed: on the last line of a program without a newline at its end line 1 is reported.", "quantifier": "all bytecode, all executions, any depth of calls", "why_tests_cant": "Deep recursion and calls across files cannot be enumerated.", "anchors": ["src/mjs_core.c:239 mjs_append_stack_trace_line", "src/mjs_core.c:264 mjs_gen_stack_trace", "src/mjs_exec.c:971"]}
{"id": "C94", "title": "Code offsets by number of call", "statement": "mjs_get_offset_by_call_frame_num gives the current offset for 0, the offset of the n-th innermost call that has not returned for n from 1 to the number of such calls, and -1 for every other number.", "quantifier": "all call stacks of whole frames, all ints", "why_tests_cant": "Call depth is unbounded.", "anchors": ["src/mjs_util.c:416 mjs_get_offset_by_call_frame_num"]}
{"id": "C95", "title": "Collections between programs cannot be noticed", "statement": "A host that executes several programs one after the other, and calls mjs_gc before, between and after them as often as it likes, gets from every program the value that it would have got without collections: the same number, string, boolean or function, or the object that is the same one. After every program all objects a script can reach have the same properties in the same order with the same values. Every engine whose memory is in order can be collected, and programs that run without a collection run after one.", "quantifier": "all sessions of programs of the language with any number of collections anywhere between them, all heaps, all placements of cells, with any garbage", "why_tests_cant": "Which cells move or are freed depends on the whole history; a lost root or a wrongly rewritten offset shows only when a later program uses that value.", "anchors": ["src/mjs_gc.c:489 mjs_gc", "src/mjs_gc.c:389 gc_compact_strings", "src/mjs_gc.c:280 gc_mark_object", "src/mjs_exec.c:1079 mjs_exec"]}
{"id": "C96", "title": "A collection releases the callback blocks of dead FFI signatures, each once", "statement": "mjs_gc frees the memory block that describes the callback of an FFI function exactly for those FFI functions that have been made, have such a block, and are not reachable from any root, and frees each of these blocks one time. Blocks of reachable FFI functions are not freed, and cells that are already free are not looked at again.", "quantifier": "all well-formed heaps, any numbers of objects, properties and signatures, any sharing, any free lists", "why_tests_cant": "A missed block leaks silently and a block freed too early or twice corrupts memory only later; which signatures are dead depends on the whole graph.", "anchors": ["src/mjs_gc.c:167 gc_sweep", "src/mjs_ffi.c:631 mjs_ffi_sig_destructor", "src/mjs_ffi.c:1017 mjs_ffi_sig_free", "src/mjs_core.c:104 mjs_create"]}
{"id": "C97", "title": "Destroying an engine frees all its cells and blocks exactly once", "statement": "After any number of collections mjs_destroy frees every remaining cell of the three arenas without freeing anything that is not allocated, and changes no other memory. Over the collections and the end together, the block of every FFI signature that was in use is freed once, and no block is freed twice if no two signatures share one.", "quantifier": "all well-formed heaps, any number of collections (including none) before the end", "why_tests_cant": "Leaks and double frees depend on what earlier collections gave back already; tests without a checker of memory do not see them.", "anchors": ["src/mjs_core.c:40 mjs_destroy", "src/mjs_gc.c:67 gc_arena_destroy", "src/mjs_gc.c:81 gc_free_block"]}
{"id": "C98", "title": "Disassembling the code of a program shows every instruction once", "statement": "For the code mjs_parse makes of any accepted program, mjs_disasm shows the header, then every instruction once and in order, taking no operand for an instruction and skipping none, and then ends. That it reads only inside the code is false: the skip over the table of lines stops one byte short, so the last byte of the table is taken for an operation, and if it is the number of one with an operand (a program whose last line is line 4, for instance) the operand is read from behind the code.", "quantifier": "all programs of the modelled grammar whose file name has no zero byte and whose code is shorter than 2^32 bytes", "why_tests_cant": "The walk depends on the lengths of all operands and on the last byte of the table; a test sees one program, and the read behind the code is silent without a checker of memory.", "anchors": ["src/mjs_util.c:114 mjs_disasm_single", "src/mjs_util.c:253 mjs_disasm", "src/mjs_parser.c:974 mjs_parse"]}
{"id": "C99", "title": "Broken-down times are converted to seconds by the Gregorian calendar", "statement": "For every time of the calendar from 1970 on, with the month given inside or outside its year, cs_timegm returns the number of seconds since the beginning of 1970, so later times give greater numbers; times from 1902 to 1969 give -1. That it does so for all later times is false: the sum is computed in int and overflows from 2038-01-19 03:14:08 on, although the result is stored in an int64_t.", "quantifier": "all calendar times from 1902 on, all representations of their month", "why_tests_cant": "Leap years, century rules and month offsets combine over all dates; a test tries a few, and rarely one after 2038.", "anchors": ["src/common/cs_time.c:62 cs_timegm"]}
{"id": "C100", "title": "Log messages carry the place they come from and obey the level set for it", "statement": "For lines below 100000 cs_log_print_prefix writes exactly 24 bytes: the name of the file after the last slash or backslash, shortened if needed, a colon, the line in decimal, and blanks. It writes them if the level of the message is not above the global level or, if a list of levels is set, the value of the first entry whose key begins the place. That it stays inside its array for every line is false: a line of more than five digits and a short name write before it.", "quantifier": "all file names, all lines below 100000, all levels, all lists of entries", "why_tests_cant": "The array is filled from both ends with lengths that depend on the name and on the number of digits.", "anchors": ["src/common/cs_dbg.c:58 cs_log_print_prefix", "src/common/mg_str.c:174 mg_str_starts_with", "src/common/str_util.c:442 mg_next_comma_list_entry_n"]}
{"id": "C101", "title": "A glob pattern matches what it says", "statement": "mg_match_prefix_n always returns, with at most the length of the text. If no dollar stands inside an alternative or after a star, a positive result n means that one of the alternatives (separated by bars or commas) matches the first n bytes: ? any byte, * any bytes but slashes, ** any bytes, $ at the end the end of the text, other bytes themselves without regard to case. Conversely a match of some bytes in which what follows each star matches some bytes, or the star is last and there is text left, gives a positive result; without stars the result is positive exactly if some alternative matches some bytes. Three things the header or the code promise are false: that a star may match nothing at the end of the text (a* does not match a), that ? does not match a slash, and that $ after a star is the end of the text (*$ matches one byte of a/b).", "quantifier": "all patterns, all texts", "why_tests_cant": "The matcher calls itself for alternatives and for every length a star may take; patterns combine these without bound.", "anchors": ["src/common/str_util.c:479 mg_match_prefix_n", "src/common/str_util.h:167 mg_match_prefix"]}
{"id": "C102", "title": "Comparisons order texts and stripping removes only blanks", "statement": "mg_vcmp and mg_vcasecmp order a counted text (which may hold NULs) against a C string by unsigned bytes, with and without case: the result is zero exactly for equal texts, negative or positive exactly if the text is before or behind in lexicographic order, for lengths below 2^31. mg_ncasecmp does so for at most n bytes of two C strings, mg_strncmp for at most n signed bytes of counted texts, mg_strcasecmp for ASCII texts. mg_strstrip of an ASCII text gives the one text without blanks around it. parse_cval_type, which compares with mg_vcmp, finds the type with exactly that name. False are: that zero means equal for all lengths (2^32 bytes equal the empty string), that the comparisons agree on bytes from 128, and that mg_strcasecmp and mg_strstrip are defined for such bytes.", "quantifier": "all texts, all lengths below 2^31, all bounds n", "why_tests_cant": "The order must hold for all pairs of texts; the failures need bytes or lengths tests do not use.", "anchors": ["src/common/mg_str.c:42 mg_vcmp", "src/common/mg_str.c:52 mg_vcasecmp", "src/common/mg_str.c:111 mg_strncmp", "src/common/mg_str.c:125 mg_strcasecmp", "src/common/mg_str.c:162 mg_strstrip", "src/common/str_util.c:358 mg_ncasecmp", "src/mjs_ffi.c:46 parse_cval_type"]}
{"id": "C103", "title": "A file is read completely or not at all", "statement": "Whatever the C library answers, as long as ftell gives a position, cs_read_file returns a block exactly if the file can be opened, the block allocated and as many bytes read as ftell told. The block then holds these bytes and a NUL, and the file is closed. Otherwise no block stays allocated, and the file is closed unless it shrank between ftell and fread. That the file is always closed is false (a short read leaves it open), and so is that a failing ftell is noticed: a block of no bytes is allocated and the file is read into it.", "quantifier": "all answers of fopen, fseek, ftell, malloc and fread, all contents", "why_tests_cant": "The failures depend on answers of the operating system that tests cannot provoke.", "anchors": ["src/common/cs_file.c:31 cs_read_file", "src/mjs_exec.c:1087 mjs_exec_file"]}
{"id": "C104", "title": "The mjs program performs its command line in order", "statement": "Flags come first, -l, -e and -f with the text that follows them, then files. main performs them in order up to the first program that fails. If one failed the error is printed; otherwise the value of the last program, the usage (-h, --help), or the first unknown flag (or flag without its text), the last with exit status 1. This holds for any engine. That the exit status tells whether the programs succeeded is false: it is 0 after an error.", "quantifier": "all command lines, all engines", "why_tests_cant": "Combinations of flags, files and failures are unbounded.", "anchors": ["src/mjs_main.c:16 main"]}
{"id": "C105", "title": "Formatted texts are never cut", "statement": "mg_avprintf, which makes the error messages, leaves the whole text with its NUL in the block of the caller if it fits, and otherwise in one new block, and returns its length; with a conforming vsnprintf it returns -1 and no block if there is no memory. With an old vsnprintf (-1 if the text does not fit) it does the same if there is memory for twice the text. False are: that lack of memory is answered by -1 with an old vsnprintf, and that a vsnprintf that fails is noticed: for every heap the blocks double until malloc fails, and the null pointer is written to.", "quantifier": "all texts below 2^31-1 bytes, all blocks and sizes, all answers of malloc", "why_tests_cant": "The growing loop runs only for other C libraries or failing formats, and its end depends on the heap.", "anchors": ["src/common/str_util.c:384 mg_avprintf", "src/mjs_core.c:116 mjs_set_errorf"]}
{"id": "C106", "title": "Error messages own exactly one block", "statement": "After any sequence of mjs_set_errorf and mjs_prepend_errorf on a new instance the message is in one block that holds the whole text, and no other block is allocated, if there is memory; for every heap, if the reports end, no block leaks or is freed twice. False are: that lack of memory while an error is reported is harmless (adding to a message then formats the null pointer, for every heap without room for the text), and that an error keeps its text (without room for the joined text both parts are lost).", "quantifier": "all sequences of reports, all texts without NUL of less than 2^31-1 bytes in total (no bound for the leaks), all answers of malloc, which may change from call to call", "why_tests_cant": "Failing allocations while an error is being reported are not exercised by tests, and a leak shows in no result.", "anchors": ["src/mjs_core.c:116 mjs_set_errorf", "src/mjs_core.c:129 mjs_prepend_errorf", "src/common/str_util.c:384 mg_avprintf"]}
{"id": "C107", "title": "A stack trace is a run of last lines", "statement": "However often malloc fails while mjs_gen_stack_trace makes the trace, the trace, if it is made, consists of the last lines in their order, with none left out between them, in one block, and no other block is left; with memory it is all lines. Emptying it in mjs_execute gives the block back. False are: that a trace begins at the place of the error (if the joined text finds no room, all lines so far are lost and the next ones are not), and that lack of memory only loses lines (without room for a line after the first, the null pointer is formatted).", "quantifier": "all lists of lines without NUL of less than 2^31-1 bytes in total, all answers of malloc, which may change from call to call", "why_tests_cant": "Traces are made after errors only, and tests do not make single allocations fail in the middle of one.", "anchors": ["src/mjs_core.c:239 mjs_append_stack_trace_line", "src/mjs_core.c:264 mjs_gen_stack_trace", "src/mjs_exec.c:569 mjs_execute"]}
{"id": "C108", "title": "What die shows", "statement": "For every string of less than 2^31 bytes, whatever lies after it in memory, and after any earlier error, die(s) reads only the string; mjs_print_error then writes the trace if asked for, the title, and the part of s before its first NUL, followed by an earlier message, or the name of the code if there is nothing to show; the code is TYPE_ERROR unless one was set. False are: that the whole text is shown (cut at a NUL), that different texts show differently (an empty text shows the name of the code), and that only the string is read (a longer foreign string without NUL is read past its end, as its length becomes a negative precision).", "quantifier": "all strings, all memory after them, all error states with a known code, all traces and titles", "why_tests_cant": "Strings with NUL, and lengths around 2^31, do not occur in tests of die.", "anchors": ["src/mjs_core.c:170 mjs_die", "src/mjs_core.c:157 mjs_print_error", "src/mjs_core.c:189 mjs_strerror"]}
{"id": "C109", "title": "Escaped JSON strings", "statement": "json_escape, which writes the strings of json_printf, turns every text of whole UTF-8 characters into a text in which no quotation mark ends the string, without reading past the text; if the text has no vertical tab, no code from 15 to 31 and no 127, json_unescape gives it back, and each of these bytes comes back changed or not at all (the hexadecimal digits are taken modulo 15). False for other texts are: that the escaped text decodes to the original, that it cannot end the string it stands in (a quotation mark after the first byte of a longer character is copied), and that only the text is read (part of a character at the end reads what follows).", "quantifier": "all texts, all memory after them", "why_tests_cant": "Tests escape a few texts; that digits are taken modulo 15 shows only for some control codes, and the copied quotation mark only for malformed texts.", "anchors": ["src/frozen/frozen.c:438 json_escape", "src/frozen/frozen.c:863 json_unescape", "src/frozen/frozen.c:557 json_vprintf"]}
{"id": "C110", "title": "Texts of json_asprintf", "statement": "Whatever realloc answers at each step, json_asprintf gives the pieces for which there was memory, in their order, with a NUL, in a block of just that size (NULL if none was stored), and the count is that of all pieces; with memory it gives all pieces. False are: that lack of memory is noticed (a piece in the middle can be missing, so that the text is another one, and neither result tells), and that pieces with a NUL are stored (the next piece overwrites what follows the NUL).", "quantifier": "all sequences of pieces without NUL, all answers of realloc, which may change from call to call", "why_tests_cant": "Tests do not make single reallocations fail in the middle of a text.", "anchors": ["src/frozen/frozen.c:1439 json_sprinter", "src/frozen/frozen.c:1453 json_vasprintf"]}
{"id": "C111", "title": "Reading JSON files", "statement": "For all answers of the C library but the largest position, json_fread closes the file in every case and gives all bytes that ftell told with a NUL, in a block of just that size, exactly if the file can be read and is not empty; otherwise it gives NULL and no block stays allocated. False are: that NULL means that the file could not be read (an empty file gives it too), and that every answer of ftell is handled (the size of the block overflows for the largest long).", "quantifier": "all answers of fopen, fseek, ftell, malloc and fread, with files that shrink or grow between the calls", "why_tests_cant": "Tests do not make the calls of the C library fail one by one, nor change a file between ftell and fread.", "anchors": ["src/frozen/frozen.c:1122 json_fread"]}
