# Formal model of mJS

Target: cesanta/mjs, sources in /repo/src. Prover: Rocq (Coq 8.16.1), development in `rocq/theories`.
`properties.jsonl` states the properties, `MANIFEST.json` maps each of them to its theorems,
`seeded/LOG.jsonl` records the wrong programs the theorems were tried against.

## Conventions

* C integers are `Z`, wrap-around is explicit (`mod 2^n`). A byte is a `Z` in [0,256), byte strings are `list Z`.
* `mjs_val_t` is a `Z` in [0,2^64), with the very bit layout of `mjs_core.h`.
* Doubles are their 64-bit patterns, decoded to the computational IEEE model `Coq.Floats.SpecFloat` (no axioms).
* Outcomes: `OK a | UB | Abort | NoFuel`. `UB` is undefined behaviour, `Abort` a failed assert or `abort()`.
  `NoFuel` is not a C outcome: it only appears in fuelled recursion, and theorems exclude it by exhibiting
  sufficient fuel (or speak about all executions that end).
* `X_Model.v` hold definitions only, each citing file and lines and stating its simplifications.
  `X_Spec.v` hold the small independent specifications. `X_Proofs.v` hold lemmas. `Props_X.v` hold the property
  theorems, `Print Assumptions`, and an `Example` that meets the hypotheses of each theorem.
* Where the unchanged code violates the natural statement, the theorem is a refutation
  (`..._refuted : exists x, ...`) with a witness. A theorem that proves only part of a property ends in `_partial`.

## Platform assumptions

LP64 little-endian (x86-64/ARM64 Linux), `sizeof(void*) = 8`, signed `char`, `MJS_MEMORY_STATS` irrelevant,
`MJS_AGGRESSIVE_GC = 0`. A left shift that overflows a signed type wraps, as gcc and clang define it. A double that
does not fit the integer type it is converted to is `UB`, as is a shift count outside the width of the type.
Allocation succeeds, except in the growable buffer (C03), own/disown (C27), reading files (C103, C111) and formatted texts (C105-C107, C110), where the allocator is an oracle.

## Plan per property

| Property | Model | Proof method |
|---|---|---|
| C01, C02 | `Varint_Model`: encode/decode loops on byte lists | induction on the number of 7-bit groups |
| C03 | `Mbuf_Model`: buffer with contents, size and an allocator oracle | refinement to `list`, induction over operation lists |
| C04-C06, C48 | `Value_Model`: tags, boxing, predicates on `Z` words | bit-field arithmetic; `Float_Proofs` for doubles |
| C07-C14 | `Str_Model`: inline/owned/foreign layouts over the owned-string buffer | refinement to byte lists; induction on literal bodies |
| C15-C18 | `Obj_Model`: property linked lists in a cell memory | refinement to finite maps over operation histories |
| C19-C21 | `Arr_Model` | refinement to lists |
| C22-C26 | `Gc_Model`: blocks, free lists, mark bits, string threading | invariants, reachability, simulation |
| C27 | `Own_Model` | multiset (permutation), induction over histories |
| C28 | `Data_Model` | byte/word arithmetic |
| C29-C31 | `Conv_Model`, `Ops_Model` | case analysis on kinds; exactness of integer arithmetic in doubles |
| C32, C33 | `Tok_Model` | induction on the source suffix |
| C34, C46, C47 | `Bcode_Model` | list surgery, induction over maps/parts |
| C35 | `Parse_Model`, `Vm_Model`, `Run_Model` | compiler correctness by induction on expression trees, from source text to result |
| C36-C38, C49, C51 | `Vm_Model` | invariants of the step function |
| C50 | `Parse_Model` | induction on the number of blocks |
| C39-C41, C64, C66, C67 | `Json_Model` | induction on documents and value trees, fuel bounds |
| C42, C52-C63 | `Ffi_Model` | induction over declaration texts, case analysis over prototypes |
| C43 | `Err_Model` | induction over reports |
| C44, C45 | `SUtil_Model` | induction over format strings and data |
| C65 | `Conv_Model` (`num_text`) | exact decimal arithmetic |
| C68 | `Parse_Model` | induction over the grammar (`Lang_Spec`), code of trees in `Lang_Code` |
| C74-C76 | `Vm_Model` | stacks as lists, frames pushed and restored |
| C77-C79 | `Num_Model`, `Ops_Model`, `Built_Model` | `NumRound_Spec`: doubles as multiples of 2^-1074, the nearest of all of them, ties by the last bit |
| C71-C73 | `Built_Model` | mutual induction over the layout of structures; string lemmas |
| C84-C87 | `Load_Model` | C69 and C81 for code that is already there, and the frame of the running C function |
| C88-C91 | `Print_Model` | texts of values as a relation; invariant of the buffer over the pieces |
| C92 | `Vm_Model` | C80 and C82 inside the frame of the running C function |
| C93, C94 | `Trace_Model` | list of call sites carried along an execution; invariant of the call stack |
| C95 | `Gc_Model`, `Run_Model` | the interpreter is blind to the numbers of objects (`Iso_Proofs`); a collection is a renaming of objects (`Coll_Proofs*`); induction on the session |
| C96, C97 | `Gc_Model`, `Destroy_Model` | the log of a sweep as a function of the memory before it (`Gc_Log`); induction on the number of collections |
| C98 | `Disasm_Model` | code as a list of instructions (`Disasm_Spec.ins`); structural induction over trees shows that compiled code is one; induction on the list for the walk; witness program for the read behind the code |
| C99 | `Time_Model` | calendar counted by years and months (`Time_Spec`), closed form of the leap days by induction on years |
| C100 | `Log_Model` | induction on the number of digits and on the entries of the list |
| C101 | `Glob_Model` | inductive relations for patterns (`Glob_Spec`); induction on the length of the pattern, inside it on the pattern and on the lengths tried for a star; witnesses for the differences from the header |
| C102 | `Cmp_Model` | lexicographic order as an inductive relation (`Cmp_Spec`); induction on the texts; witnesses for lengths from 2^32 and bytes from 128 |
| C103 | `File_Model` | case analysis over all answers of the C library, with the calls made as a trace |
| C104 | `Main_Model` | grammar of command lines and performing of actions as inductive relations (`Main_Spec`); induction on the reading |
| C105 | `Avp_Model` | induction on the doublings of the block, for every heap and three kinds of vsnprintf |
| C106 | `ErrMem_Model` | refinement of `Err_Model` by induction over reports, and an invariant on blocks for every heap |
| C107 | `TrMem_Model` | induction over lines with the lines kept so far as invariant, for every heap |
| C108 | `Die_Model` | induction on the bytes read by the format; composition with `Err_Model` |
| C109 | `Escape_Model` | induction on the characters of the text (`Escape_Spec`), case analysis over all bytes below 128 |
| C110 | `Asp_Model` | induction over pieces, for every sequence of answers of realloc |
| C111 | `Fread_Model` | cases over the answers of the C library, with the events of C103 |
| C83 | `Init_Model` | representation of the state with the built-in names, then as C70 |
| C69, C70, C80-C82 | `Vm_Model`, `Run_Model` | simulation of the interpreter of `Lang_Spec` by the executor, induction over its depth |

## What is modelled, area by area

* **Varints** (`Varint_Model`): all of cs_varint.c.
* **Buffers** (`Mbuf_Model`): all of mbuf.c with MBUF_SIZE_MULTIPLIER 1.5; the allocator may refuse.
* **Values** (`Value_Model`): mjs_primitive.c, the tags of mjs_core.h, the predicates of mjs_string.c, mjs_object.c,
  mjs_array.c, mjs_get_type, mjs_normalize_idx. Number conversions are those of SpecFloat.
* **Strings** (`Str_Model`): mjs_mk_string, mjs_get_string, mjs_get_cstring, mjs_strcmp, str_to_ulong, s_cmp, s_concat,
  slice, indexOf, charCodeAt, `at`-style subscripts, unescape, embed_string, the string part of getprop_builtin.
  mjs_mkstr is in `Built_Model`. Memory outside the engine is a partial map that the strings do not change.
* **Text utilities** (`SUtil_Model`): c_vsnprintf (all conversions it knows), cs_to_hex/cs_from_hex, the base64 of
  frozen.c, c_strnstr, mg_strchr, mg_strcmp, mg_next_comma_list_entry_n.
* **Objects and arrays** (`Obj_Model`, `Arr_Model`): mjs_object.c, mjs_array.c (mjs_struct_to_obj is in `Built_Model`).
  Cells are taken from an abstract fresh-address allocator here; the real one is in the collector model.
* **Collector** (`Gc_Model`): mjs_gc.c except gc_arena_destroy (in `Destroy_Model`) and the trimming of the string buffer. The machine
  stack used by recursive marking is not modelled.
* **Roots** (`Own_Model`): mjs_own, mjs_disown.
* **Raw memory** (`Data_Model`): mjs_dataview.c.
* **Operators** (`Ops_Model`, `Conv_Model`): do_arith_op, do_op, check_equal, the unary and relational operators,
  mjs_to_string, mjs_is_truthy, mjs_jprintf on numbers (other values: see Printing).
* **Errors** (`Err_Model`): mjs_set_errorf, mjs_prepend_errorf, mjs_strerror on formatted texts.
* **Tokenizer** (`Tok_Model`, `Num_Model`): mjs_tok.c. strtod is taken to be correctly rounded, strtoul as in C99;
  the locale is "C".
* **Byte code** (`Bcode_Model`): mjs_bcode.c and the lookups of mjs_util.c (file name, line).
* **Parser** (`Parse_Model`): mjs_parser.c. Error texts are not kept. The machine stack is not modelled.
* **Executor** (`Vm_Model`, `Run_Model`): mjs_exec.c (all opcodes), the stacks of mjs_core.c, mjs_apply, mjs_exec.
  Simplifications: no collection runs during execution; C functions and ffi calls are parameters (`host`);
  OP_SETRETVAL pops before it takes the address (C leaves the order open); a string operand of length -1 is a read
  beyond the code; error texts are not kept, and the stack trace only in `Trace_Model`; the `.jsc` cache (mmap) is not modelled; the global object starts empty in `create`; `Init_Model` adds the built-in
  names (mjs_init_builtin), and `Init_Spec` says what they are (C83).
  C35 covers literals (decimal and lower-case `0x`), strings, variables, all unary and binary operators,
  conditionals and parentheses.
  C68-C70 cover whole programs. `Lang_Spec` has the trees, the grammar over tokens (including the parser's nesting
  counter) and a definitional interpreter: objects are lists of named values, scopes are lists of objects, a statement
  ends normally, with break, continue or return. The interpreter counts the memory that is left, so that a program that
  would exceed 2^47 bytes has no value. Arrays, keys that
  are indices, `length`, characters of strings, and calls of push, slice, indexOf, charCodeAt and at are covered. A for-in statement
  visits the names the object has when it starts, the last made first; its value is the name of its variable (as in the
  engine). It
  gives no value for programs that fail (C81, C82: see below), and no value (and the theorems say nothing) for: calls of splice, negative positions, properties found
  through `__p`, functions compared with each other, calls of values that are neither functions of the language nor
  these methods, callees that are conditional or logical expressions, the name `apply`. `Lang_Code` is the code of a tree, `Lang_Spec2` the representation of interpreter
  states in the engine, `Lang_Spec3` sessions, `Lang_Spec4` hosts that run programs and call the functions they made (C80).
  `Lang_Spec5` says which programs fail, with which error, in which state and with which `this`: undeclared variables,
  calls of what is no function, operators on operands they are not for, properties of values that have none, `==` and
  `!=`. Failures of built-in methods, of C functions, and for lack of memory are not covered. `Lang_Spec6` has sessions
  that go on after failures (C82).
  `Props_Dev` shows by programs where the language differs from ECMAScript.
* **Loading** (`Load_Model`): mjs_load, mjs_get_loaded_file_bcode, mjs_exec_file. Simplifications: files are a function from
  names to contents that does not change; texts of errors are not kept; a path with a NUL byte is UB. `loader` is a host
  whose C function is mjs_load, with the nesting of loads bounded by fuel. The theorems of `Props_Load` speak of the
  moment at which the C function is running (`called`), as the executor sets it up for a call.
* **Printing** (`Print_Model`): mjs_jprintf, mjs_sprintf, mjs_fprintf, json_printer_buf, json_printer_file, mjs_print, and of
  json_vprintf what the formats used there need: one call of the printer for each conversion. Simplifications: the C
  locale; fwrite and malloc succeed; the va_arg of json_vprintf with types other than those passed (int for pointers and
  longs) is taken to skip one argument, as it does on LP64 machines.
* **Stack traces** (`Trace_Model`): mjs_append_stack_trace_line, mjs_gen_stack_trace, mjs_get_offset_by_call_frame_num.
  Simplifications: `run_trace` is what one mjs_execute adds to the trace; a failed mjs_execute below it (in f.apply or
  load) has left its own lines, with the outer calls in them, before these. The message on stderr is not kept.
* **The end of an engine** (`Destroy_Model`): gc_arena_destroy, gc_free_block and mjs_core.c:66-68. Freeing cells that are not allocated is
  undefined behaviour in the model. Of a signature only its first word, the pointer to the block of its callback's signature, is looked at;
  the log of `Gc_Model` lists the blocks that the destructor frees. The other frees of mjs_destroy (code, buffers, texts, the
  arguments of callbacks) are not modelled, and C97 does not cover programs that run between the collections.
* **Collections between programs** (`Coll_Spec`, `Coll_Spec2`): no new model. `depicts` says when the byte-level memory of `Gc_Model` and the state of
  the executor of `Vm_Model` are the same engine: the same cells at addresses related by a one-to-one map, the same strings, stacks and values.
  The executor numbers cells freshly and never reuses them; the map absorbs the allocator's reuse. `session` interleaves `mjs_exec` with collections.
  Collections inside a running program (maybe_gc in mjs_execute, mjs_exec.c:577-584) are not covered: between programs only.
* **Built-in functions** (`Built_Model`): mjs_chr, mjs_s2o, mjs_struct_to_obj, mjs_mkstr, mjs_op_isnan. Simplifications:
  member tables are lists at addresses, not bytes; a C function of a custom field is a parameter and C71 leaves such
  fields out; a bool in memory that is neither 0 nor 1 is UB; pinning of the object is in `Own_Model`.
* **FFI** (`Ffi_Model`): mjs_ffi.c (signatures, calls, callbacks, ffi_cb_free) and ffi.c (dispatch). Simplifications:
  rounding to float is not modelled; isspace and isalnum are false from 128 on; callbacks receive words and doubles in
  separate registers (x86-64); the result of a callback is not converted; an error that mk_foreign reports inside a
  callback is not kept; dlsym of mjs_ffi.c is a parameter.
* **JSON** (`Json_Model`): mjs_json.c with is_debug = 0, and the parser, walker and string decoder of frozen.c.
  Simplifications: the machine stack is not modelled; callbacks run after the walk instead of during it; bytes that
  strtod may look at without using them count as read; the bytes of a name are captured when it is set; texts are
  shorter than 2^31; mjs_own of intermediate results is not modelled; pointer arithmetic beyond the end of a buffer
  without an access is not UB.
* **Disassembler** (`Disasm_Model`): mjs_disasm_single and mjs_disasm of mjs_util.c, with the indices shown as the result.
  Simplifications: the text printed is left out, and with it the reads that only the log's most verbose level makes;
  memory behind the code (trimmed by mjs_bcode_commit) is not readable; a loop that does not end runs out of fuel.
* **Time and log** (`Time_Model`, `Log_Model`): cs_timegm of cs_time.c and cs_log_print_prefix of cs_dbg.c. Simplifications:
  the double cs_timegm returns is given as an integer; the stream of the log and CS_LOG_ENABLE_TS_DIFF are left out.
* **Glob patterns** (`Glob_Model`): mg_match_prefix_n of str_util.c. Simplifications: the indices into pattern and text are
  the rests of two lists, so reads outside them cannot be expressed; tolower is that of the C locale; the depth of the C
  stack is not bounded.
* **Comparisons** (`Cmp_Model`): mg_vcmp, mg_vcasecmp, mg_strncmp, mg_strcasecmp and mg_strstrip of mg_str.c, mg_ncasecmp of
  str_util.c. Simplifications: strncmp gives -1, 0 or 1 (only its sign is used); tolower and isspace are those of the C
  locale and UB outside their domain; char is signed; size_t is cut to an int modulo 2^32. `type_lookup` discharges the
  assumption of `Ffi_Model` about mg_vcmp.
* **Reading files** (`File_Model`): cs_read_file of cs_file.c as a function of the answers of fopen, fseek, ftell, malloc and
  fread. Simplifications: the file system is those answers; malloc of zero bytes may give a block; fclose does not fail.
* **Command line** (`Main_Model`): main of mjs_main.c over any engine (a record of mjs_exec, mjs_exec_file and the two setters).
  Simplifications: atoi is part of the setter of the level; the texts printed are the way main ends; mjs_create succeeds.
* **Formatting into a growing block** (`Avp_Model`): mg_avprintf of str_util.c. Simplifications: format and arguments are the text
  they make; vsnprintf is conforming, old (-1 if the text does not fit) or failing (always -1); sizes given are below 2^31.
* **Blocks of error messages** (`ErrMem_Model`): mjs_set_errorf and mjs_prepend_errorf over mg_avprintf and any malloc, whose answers may change. Simplifications:
  a conforming vsnprintf; format and arguments are the text they make, and do not point into the old message; %s of a null pointer
  is undefined, as in C, though some libraries print a placeholder.
* **Blocks of the stack trace** (`TrMem_Model`): mjs_append_stack_trace_line and the loop of mjs_gen_stack_trace over mg_asprintf and any malloc,
  and the emptying in mjs_execute. Simplifications: a line is its text (`Trace_Model` tells which); a conforming vsnprintf.
* **die and printed errors** (`Die_Model`): mjs_die on a string and mjs_print_error. Simplifications: the check of the argument and
  mjs_get_string are in other models; allocation succeeds; what is written to the file is a text.
* **Escaping** (`Escape_Model`): json_escape of frozen.c, against json_unescape of `Json_Model`. Simplifications: isprint of the C locale;
  the printer stores all it is given, and the result is the text.
* **Reading JSON files** (`Fread_Model`): json_fread of frozen.c over any answers of the C library. Simplifications: those of `File_Model`;
  a long has 64 bits. fclose is taken to close the file whatever it answers.
* **Growing JSON texts** (`Asp_Model`): json_sprinter and json_vasprintf of frozen.c over any realloc. Simplifications: json_vprintf is the
  pieces it gives to the printer; sizes stay below 2^64.

Not modelled at all: the rest of mjs_builtin.c (gc), the dumps of mjs_util.c,
the rest of the printing, scanning and pretty-printing half of frozen.c, the rest of cs_dbg.c and cs_time.c,
cs_mmap_file, cs_dirent.c and everything under common/platforms.

## Trusted base

* Coq's kernel (and coqchk's, which re-checks the compiled files).
* `Print Assumptions` of every theorem named in `MANIFEST.json` prints "Closed under the global context": no axioms,
  neither own ones nor those of the standard library. The Props files run it for each theorem.
  coqchk, which lists the axioms of all loaded files, names seven parameters of `Coq.ssr.ssrunder.Under_rel`: the standard
  library loads that file with its tactics, and no theorem here depends on them.
* The hand translation of the C code into the model. Every definition cites its source lines. The compiler, the C
  library (strtod, printf, memory functions) and the operating system are as described above.
* The reading of the specifications in `X_Spec.v` and of the theorem statements.
