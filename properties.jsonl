{"id": "C01", "title": "Integer expressions compute over unbounded integers", "statement": "Evaluating an expression built from integer literals, in-scope integer or pointer variables, + - * / % << >> & | ^ ~ ! < > <= >= == != && || ?: parentheses and the comma operator yields the integer that the same expression denotes over the mathematical integers, where / rounds towards minus infinity, % takes the sign of the dividend, << multiplies and >> divides (towards zero) by two to the magnitude of the right operand, and the bit operators act on infinite two's complement. It changes no byte of any variable and leaves every scope unchanged. If a division or remainder by zero is reached the program aborts instead of producing a value.", "quantifier": "every expression of that fragment of any size, every assignment of values to the variables, every memory content, every garbage-collection schedule", "why_tests_cant": "there are infinitely many expressions and values; a test fixes one of each and one collection schedule", "anchors": ["src/evaluate.c: eval_add, eval_sub, eval_mul, eval_div, eval_mod, eval_lshift, eval_rshift, eval_ior, eval_xor, eval_iand, eval_ones_comp, eval_negate, eval_lt, eval_gt, eval_lteq, eval_gteq, eval_eq, eval_n_eq, eval_logic_or, eval_logic_and, eval_infix, eval_comma, eval_expr_list, make_int_from_live_var, convert_to_comparable_type"]}
{"id": "C02", "title": "Assigning an integer value stores it modulo the width of the variable", "statement": "After `x = e`, where x is an in-scope integer variable of any integer type and e evaluates to an integer value v with -2^63 <= v < 2^63, reading x gives the unique value of x's type congruent to v modulo 2^(8*sizeof x); exactly the sizeof(x) bytes of x may change, no other byte does, and the assignment expression itself has the value v (not the converted value).", "quantifier": "every integer type, every 64-bit value, every memory content, every collection schedule", "why_tests_cant": "the value space is 2^64 per type and the frame condition ranges over all memory", "anchors": ["src/evaluate.c: eval_assign, assign_integer, make_int_from_live_var"]}
{"id": "C03", "title": "Exact conversion of out-of-range integers on assignment", "statement": "When the assigned integer v is outside the signed 64-bit range, the stored value is the low bits of a 63-bit sign-magnitude truncation of v (the magnitude is reduced modulo 2^63 before the sign is applied), so that values between 2^63 and 2^64-1 assigned to an unsigned 64-bit variable lose their top bit. Consequently `unsigned long x = 18446744073709551615;` does not store that value.", "quantifier": "every integer v of any size, every integer type", "why_tests_cant": "the defect shows only for values above 2^63, an unbounded set no test enumerates", "anchors": ["src/evaluate.c: assign_integer, eval_cast"]}
{"id": "C04", "title": "Increment and decrement wrap and return the right value", "statement": "`++x`/`--x` add/subtract one modulo 2^(8*sizeof x) and yield the new value; `x++`/`x--` store the same but yield the value before. Only x's bytes change. For a pointer variable the stored address changes by exactly one byte whatever the pointee type.", "quantifier": "every integer type and pointer type, every stored value including the extremes", "why_tests_cant": "wrap-around happens only at type extremes, and the pointer claim ranges over all pointee types", "anchors": ["src/evaluate.c: eval_inc, eval_dec, eval_post_inc, eval_post_dec, live_var_add, live_var_sub"]}
{"id": "C05", "title": "Compound assignment is read-modify-write of the same variable", "statement": "`x += e`, `x -= e`, `x /= e`, `x <<= e`, `x >>= e`, `x ^= e` on an integer variable x leave in x the value `x op e` would denote, reduced to x's type, with x read before the store; nothing else in memory changes.", "quantifier": "every operator, type, value and right operand expression of the integer fragment", "why_tests_cant": "the cross product of operators, types and values is unbounded", "anchors": ["src/tree.h: tree_make_binmod", "src/parser.m4: assignment_expression", "src/evaluate.c: eval_assign"]}
{"id": "C06", "title": "Integer casts agree with C and do not touch the source", "statement": "Casting an integer variable to any integer type yields a new object holding the value reduced modulo 2^width with the sign of the destination type; casting to a pointer type yields the sign-extended 64-bit pattern; the source variable and all other live storage keep their contents.", "quantifier": "every ordered pair of integer types and every value", "why_tests_cant": "each of the 110 type pairs has up to 2^64 values", "anchors": ["src/evaluate.c: eval_cast"]}
{"id": "C07", "title": "Logical operators short-circuit", "statement": "In `a && b`, b is evaluated if and only if a is non-zero; in `a || b`, if and only if a is zero. When b is skipped no effect of b is observable: no store, no declaration, no external call, no error. The result is always 0 or 1.", "quantifier": "every pair of sub-expressions, including ones with arbitrary side effects or that would abort, every state", "why_tests_cant": "the skipped operand ranges over all expressions", "anchors": ["src/evaluate.c: eval_logic_or, eval_logic_and"]}
{"id": "C08", "title": "A conditional evaluates exactly one branch", "statement": "`c ? a : b` and `if (c) A else B` evaluate c once and then exactly one of the two arms, chosen by whether c's value is non-zero after truncation to a C long; the other arm has no effect whatever it contains. For conditions within the signed 64-bit range this is the C rule.", "quantifier": "every condition and both arms over all statements", "why_tests_cant": "arms range over all programs; truncation only matters beyond 2^63", "anchors": ["src/evaluate.c: eval_infix, eval_if"]}
{"id": "C09", "title": "Conditions of loops and ifs are truncated, logical operators are not", "statement": "There is an integer expression that `&&`, `||` and `!` treat as true while `if`, `while`, `for` and `?:` treat it as false: exactly the non-zero integers whose magnitude is positive and a multiple of 2^63 (for positive values).", "quantifier": "every integer value of the condition", "why_tests_cant": "the disagreement set is infinite but sparse, starting at 2^63", "anchors": ["src/evaluate.c: eval_if, eval_infix, eval_loop_for, eval_loop_while, eval_logic_and"]}
{"id": "C10", "title": "While loops satisfy the invariant rule", "statement": "If a predicate on program state is preserved by evaluating the condition and by each execution of the body, then when a `while` loop finishes the predicate holds and, unless the loop was left by break, the condition evaluated to false last. The body is never executed after the condition evaluated to false.", "quantifier": "every loop body and condition, every number of iterations, every invariant", "why_tests_cant": "the number of iterations is unbounded", "anchors": ["src/evaluate.c: eval_loop_while"]}
{"id": "C11", "title": "For loops run init once, then condition, body, step in that order", "statement": "A `for` loop behaves as its initialiser followed by a while loop whose body is the loop body followed by the step expression; the initialiser is evaluated exactly once, in the enclosing scope, so a variable declared there is still in scope after the loop.", "quantifier": "every initialiser, condition, step, body and iteration count", "why_tests_cant": "iteration counts and sub-programs are unbounded", "anchors": ["src/evaluate.c: eval_loop_for"]}
{"id": "C12", "title": "Return unwinds to the innermost active call", "statement": "When a `return` statement in a braced block is executed under any nesting of braced ifs and loops inside a called function and no break statement was executed during the call, evaluation of that function stops, the scopes opened since the call are discarded, the scope of the caller is current again, and the call's value is the returned expression's value; if the function ends without return the call has no value. After a break this fails: a loop left by break inside a called function leaves that function's scope current, and a later return of the caller jumps to the dead activation.", "quantifier": "every nesting depth of statements, every function body and caller state", "why_tests_cant": "nesting depth and bodies are unbounded", "anchors": ["src/evaluate.c: eval_return, eval_fn_call, __evaluate"]}
{"id": "C13", "title": "A return statement only computes its value once", "statement": "The first time a given return statement completes, its operand is replaced by the value obtained; every execution of the same statement that starts later returns that same object again without evaluating its operand. Hence a function whose return operand depends on its argument returns its first result for ever after.", "quantifier": "every return statement and every later call history", "why_tests_cant": "needs two or more calls with different arguments and a history-dependent comparison over all histories", "anchors": ["src/evaluate.c: eval_return"]}
{"id": "C14", "title": "Block scoping: leaving a block restores the visible names", "statement": "If no break statement is executed during it, evaluating any expression or statement leaves the stack of scopes exactly as deep as before, and every scope other than the innermost one at the start maps exactly the same names to the same objects as before; the innermost scope can only gain names.", "quantifier": "every program fragment, every starting state, every collection schedule, every external function behaviour without call-backs that break", "why_tests_cant": "ranges over all programs and nesting", "anchors": ["src/evaluate.c: push_ctx, pop_ctx, eval_if, eval_loop_for, eval_loop_while, eval_fn_call, eval_decl_compound, handle_static_decl"]}
{"id": "C15", "title": "Names are never rebound and the innermost declaration wins", "statement": "Looking up a name finds the declaration in the innermost scope that has one, then the scopes around it, then the included headers. Within one scope a name is mapped at most once: no evaluation ever makes a scope map an ordinary name twice, and a second declaration of a variable in the same scope stops the program with an error.", "quantifier": "every program and every scope stack", "why_tests_cant": "an invariant over all reachable evaluator states", "anchors": ["src/evaluate.c: __resolve_identifier, map_identifier, __map_identifer"]}
{"id": "C16", "title": "Calls see the caller's variables (dynamic scope)", "statement": "A name not declared inside a called function resolves to the nearest active caller's variable of that name at the time of the call, ahead of the global of that name.", "quantifier": "every call chain and name", "why_tests_cant": "the claim is about all call chains", "anchors": ["src/evaluate.c: eval_fn_call, __resolve_identifier"]}
{"id": "C17", "title": "Parameters receive the argument values left to right", "statement": "Calling an interpreted function with as many arguments as declared parameters evaluates the arguments once each from left to right and binds each parameter, in a fresh scope, to a new variable holding the argument's value converted to the parameter's type, provided no argument expression mentions the name of an earlier parameter. If it does, that argument sees the parameter instead of the caller's variable.", "quantifier": "every parameter list, argument list and caller state of the integer fragment", "why_tests_cant": "lists are unbounded; the capture case needs a coincidence of names", "anchors": ["src/evaluate.c: eval_fn_call"]}
{"id": "C18", "title": "Wrong argument counts are rejected, except for functions with empty parameter lists", "statement": "Calling an interpreted function that declares n >= 1 parameters with a different number of arguments stops with an error before any argument is evaluated; a function declared with () accepts and ignores any arguments without evaluating them; a function declared with (void) can never be called successfully.", "quantifier": "every parameter list and argument list", "why_tests_cant": "list lengths are unbounded", "anchors": ["src/evaluate.c: eval_fn_call, eval_decl"]}
{"id": "C19", "title": "Static locals keep their storage and value between executions", "statement": "The initialiser of a `static` declaration is evaluated exactly once, at its first execution; every later execution makes the same names refer to the same storage, without re-initialising, and that storage is never freed by the collector.", "quantifier": "every static declaration, every sequence of later executions, every collection schedule", "why_tests_cant": "a claim about all execution histories", "anchors": ["src/evaluate.c: handle_static_decl, eval_evaluator_ctx"]}
{"id": "C20", "title": "Storage of distinct variables never overlaps and is never freed while in scope", "statement": "At every point of every execution, the storage blocks tracked for the scopes on the stack, for static variables and for included headers are allocated, pairwise disjoint and never released by the garbage collector, whichever unreachable blocks it chooses to free at whichever allocation.", "quantifier": "every program, every garbage-collection schedule and choice of victims", "why_tests_cant": "collection schedules and programs are unbounded", "anchors": ["src/evaluate.c: make_live_var, track_alloc, alloc_struct, alloc_array, assign_ptr", "src/gc.c: collect, sweep"]}
{"id": "C21", "title": "Address-of and dereference are inverse on variables", "statement": "For an in-scope scalar variable x, `*&x` denotes exactly the storage of x: reading it gives x's value and assigning through it assigns x; `p->m` and `(*p).m` denote the same storage.", "quantifier": "every scalar type and every memory content", "why_tests_cant": "holds for all types, values and aliasing patterns", "anchors": ["src/evaluate.c: eval_addr, eval_deref, eval_comp_access", "src/parser.m4: postfix_expression"]}
{"id": "C22", "title": "Array elements are laid out contiguously and do not overlap", "statement": "For an array declared with n elements of element type T, element i starts i*sizeof(T) bytes after element 0, `sizeof` of the array is n*sizeof(T), elements with different indices in range are disjoint, all lie inside the array's storage, and writing one leaves all others unchanged. A negative index i accesses element |i|.", "quantifier": "every element type, length and index", "why_tests_cant": "lengths and indices are unbounded", "anchors": ["src/evaluate.c: alloc_array, instantiate_array, get_array_size, eval_array_access"]}
{"id": "C23", "title": "Structure members are in order, disjoint and inside the structure", "statement": "For every structure whose members are scalars, pointers or arrays of these, members are placed in declaration order, no two members overlap, each lies within sizeof the structure, every member is aligned to its own scalar size, and no byte of padding beyond the minimum needed is inserted before a member. Unlike C no padding is added after the last member.", "quantifier": "every member list", "why_tests_cant": "member lists are unbounded", "anchors": ["src/evaluate.c: eval_decl_compound, get_alignment_for_type, expand_decl_chain"]}
{"id": "C24", "title": "Union members all start at offset zero and the union is as large as its largest member", "statement": "Every member of a union has offset 0 and the union's size is the maximum member size; a store to one member is visible through the bytes of the others.", "quantifier": "every member list", "why_tests_cant": "member lists are unbounded", "anchors": ["src/evaluate.c: eval_decl_compound"]}
{"id": "C25", "title": "Accessing a member reaches that member's storage only", "statement": "In a variable of structure type, `s.m` denotes the storage at the base of s plus the offset of m with m's declared type; assigning to s.m changes no other member; an unknown member name yields no object.", "quantifier": "every structure type, member and memory content", "why_tests_cant": "structures are unbounded", "anchors": ["src/evaluate.c: instantiate_struct, instantiate_struct_element, eval_comp_access"]}
{"id": "C26", "title": "Enumerators count up from the last explicit value", "statement": "In an enum declaration the first enumerator without explicit value is 0, each other without explicit value is one more than its predecessor modulo 2^32, and an explicit value v gives |v| modulo 2^32; each name becomes an integer constant in the current scope.", "quantifier": "every enumerator list and explicit values", "why_tests_cant": "lists and values are unbounded", "anchors": ["src/evaluate.c: eval_enumerator"]}
{"id": "C27", "title": "Typedefs are transparent", "statement": "After `typedef T N;` in scope, declaring a variable with type N has the same effect as declaring it with type T: same type, same storage size.", "quantifier": "every declared scalar, pointer or named type and declarator", "why_tests_cant": "types are unbounded", "anchors": ["src/evaluate.c: map_typedef, handle_typedef, eval_decl"]}
{"id": "C28", "title": "Declaration specifiers resolve independently of order and only in the listed combinations", "statement": "A list of basic type specifiers (with storage-class specifiers anywhere) resolves to a type exactly when its multiset of basic specifiers is one of the accepted C combinations, the resulting type is the C one, and any reordering of the list resolves to the same type; every other multiset stops with an error.", "quantifier": "every specifier list of any length and order", "why_tests_cant": "lists are unbounded and have factorially many orders", "anchors": ["src/genspecresolver.cpp: outputBitStirngSetLoop, outputTypeReturn", "src/c.lang: defspecifier"]}
{"id": "C29", "title": "External calls pass arguments in order with default promotions only in the variadic part", "statement": "A call to an external function with at most 32 arguments passes exactly the evaluated arguments in order; strings and pointers as pointers; integer constants as 32-bit ints (reduced modulo 2^32); variables with their own type, except that in the variadic part char, short and float are passed as int, int and double with the same value and unsigned char, unsigned short as unsigned int with the same value. With more than 32 arguments the program exits with an error.", "quantifier": "every argument list and memory content", "why_tests_cant": "argument lists and values are unbounded", "anchors": ["src/function-call.c: push_arg, do_ext_call", "src/evaluate.c: eval_fn_args"]}
{"id": "C30", "title": "The collector frees exactly the unreachable objects", "statement": "When a collection completes, every object reachable from a stack word or a static root through property links, elements of chain heads and file-name links is kept with its contents, every other allocated object is freed exactly once together with the memory it owns, and all marks are clear again - provided that the array of objects was never full when a collection was due and that memory added to the array by realloc was zero.  Without these conditions the claim is false: the extension clears only an eighth of the new memory, so a later collection can free a live object or crash, and a full array makes the collector read behind its end.", "quantifier": "every sequence of allocations, inhibitions and changes of the objects, every root set", "why_tests_cant": "object graphs and operation sequences are unbounded; the failures need more than ten thousand live objects", "anchors": ["src/gc.c: mark_tree, mark_potential_root, mark_stack, mark_static, sweep, fixup_alloc_array, collect, extend_allocs, track_new_alloc", "src/gengc.cpp: outputPreamble"]}
{"id": "C31", "title": "Marking terminates on acyclic object graphs and not on cyclic ones", "statement": "Marking terminates from every root of an acyclic graph; from an object that can reach itself marking never terminates since visited objects are not skipped.", "quantifier": "every object graph", "why_tests_cant": "non-termination cannot be established by a test", "anchors": ["src/gengc.cpp: outputPreamble", "src/gc.c: mark_tree"]}
{"id": "C32", "title": "Collections are throttled and can be inhibited", "statement": "No collection happens while the inhibit count is positive; inhibit/enable nest; with collection enabled, a collection happens exactly at every 2002nd uninhibited allocation since the last one.", "quantifier": "every sequence of inhibit, enable and allocate operations", "why_tests_cant": "operation sequences are unbounded", "anchors": ["src/gc.c: maybe_collect, inhibit_gc, enable_gc, alloc_tree"]}
{"id": "C33", "title": "Chains behave as sequences", "statement": "On a well-formed circular chain, adding at the head, adding at the tail and deleting an element have exactly the effect of these operations on the represented sequence, forward and backward traversal agree, emptiness is decided correctly, and moving one chain onto another appends it and empties it.", "quantifier": "every well-formed chain and every sequence of operations", "why_tests_cant": "sequences of operations are unbounded", "anchors": ["src/list.c: list_add, list_add_tail, list_del, list_empty", "src/tree.h: tree_chain, tree_unchain, tree_splice_chains"]}
{"id": "C34", "title": "list_splice does not splice", "statement": "Splicing a chain onto another chain never yields the concatenation: traversal of the destination never comes back to its head.", "quantifier": "every pair of disjoint well-formed chains", "why_tests_cant": "non-termination of a traversal cannot be tested", "anchors": ["src/list.c: list_splice"]}
{"id": "C35", "title": "Hash-table bins partition the entries by key", "statement": "After any sequence of insertions, the bin looked up for a key holds every element inserted under that key, most recent first, and only elements whose key hashes to the same bin; the bin index is always within the table.", "quantifier": "every insertion sequence, key and table size up to 2^31", "why_tests_cant": "keys and sequences are unbounded", "anchors": ["src/hash_table.c: hash_table_add, hash_table_get_bin, super_fast_hash, hash_table_alloc"]}
{"id": "C36", "title": "A name is treated as a type exactly when a typedef introduced it", "statement": "After any sequence of typedef declarations inside and outside header files and header resets, an identifier is classified as a type name iff it is a builtin type name, or was introduced outside headers, or was introduced in headers since the last reset, where for declarators the identifier under any pointers, arrays and function parameters is introduced.", "quantifier": "every sequence of typedefs and includes", "why_tests_cant": "histories are unbounded", "anchors": ["src/typename.c: add_typename, is_typename, reset_include_typenames, typename_init", "src/parser.m4: find_ids_to_map_to_typenames"]}
{"id": "C37", "title": "Integer literals are read exactly; printing and reading are inverse", "statement": "A decimal literal with optional minus sign and a hexadecimal literal of any length denote exactly that integer (a leading zero does not mean octal); printing an integer result and lexing the text again gives the same integer.", "quantifier": "every literal text and every integer of any size", "why_tests_cant": "unbounded lengths", "anchors": ["src/lex.m4: INTEGER rules", "src/pretty-printer.c: __pp_1", "src/parser.m4: primary_expression"]}
{"id": "C38", "title": "String literals: escapes decode and no raw character changes", "statement": "A string literal lexes to the concatenation of its ordinary runs and decoded escapes (\\n, \\t, \\\\, \\\", octal); every NUL-free string can be written as a literal that lexes back to it; an octal escape for NUL contributes nothing; any other escape or a newline stops with an error.", "quantifier": "every literal body and every NUL-free string", "why_tests_cant": "strings are unbounded", "anchors": ["src/lex.m4: str_lit rules, sl_begin, sl_append_str, sl_append_char", "src/util.c: concat_strings"]}
{"id": "C39", "title": "Character literals", "statement": "A character literal of a single ordinary character denotes its signed char code; only \\n, \\\\ and \\r escapes are accepted; every other escaped or multi-character literal of length other than 3 or 4 stops with an error.", "quantifier": "every quoted text", "why_tests_cant": "all texts", "anchors": ["src/lex.m4: lex_char"]}
{"id": "C40", "title": "A script runs main exactly when it defines it, and never mixes it with top-level code", "statement": "A script with a function declarator named main as first declarator of a declaration and only declarations is run by evaluating the declarations in order and then calling main once with argc/argv according to its number of parameters; a script without one is evaluated in order; a script with both main and another top-level statement exits with status 1 before evaluating anything.", "quantifier": "every list of top-level items", "why_tests_cant": "lists are unbounded", "anchors": ["src/cscript.c: __evaluate_cscript, add_call_to_main"]}
{"id": "C41", "title": "Exit status: main's result is ignored, top-level return is not", "statement": "If a script with main runs to completion the process status is 0 whatever main returns; a top-level `return v;` ends the script with status v modulo 256 without running later statements; every evaluation error exits with status 1.", "quantifier": "every script", "why_tests_cant": "ranges over all scripts", "anchors": ["src/cscript.c: evaluate_cscript, cscript_exit", "src/evaluate.c: __evaluate, get_c_main_return_value, eval_die"]}
{"id": "C42", "title": "argc and argv reach the script", "statement": "Before a script runs, argc holds the number of arguments and argv[i] the i-th argument's address for every i below argc.", "quantifier": "every argument vector", "why_tests_cant": "argument vectors are unbounded", "anchors": ["src/cscript.c: create_arguments"]}
{"id": "C43", "title": "Completion candidates cross the pipe unchanged", "statement": "The list of completion strings received by the parent equals the list sent by the child, whatever the timing of the two processes, for every list of fewer than 2^31 NUL-free strings of less than 4096 bytes each, including none.  A longer string may arrive cut off, since a short read is not repeated.", "quantifier": "every list of strings", "why_tests_cant": "lists and strings are unbounded", "anchors": ["src/repl.c: send_matches, recieve_matches"]}
{"id": "C44", "title": "Identifier completion offers exactly the visible names with the prefix", "statement": "Completing a word that is not a member access offers one entry per mapping of every visible scope whose name starts with the word, innermost scope first and in declaration order and the included declarations last; with one candidate it alone is offered, with several the typed text comes first, with none there is no completion. The scopes are unchanged. This needs the matching identifiers to be different nodes: if one node is mapped in two visible scopes completion never ends.", "quantifier": "every scope stack and prefix", "why_tests_cant": "scope stacks are unbounded", "anchors": ["src/repl.c: match_identifiers_for_idmap, create_matches_array", "src/evaluate.c: find_global_identifiers"]}
{"id": "C45", "title": "Splitting of member-access text", "statement": "For text with a dot after its first character, the object expression is everything before the last dot and the prefix everything after it, even when an arrow follows the dot. For text with an arrow but no dot after its first character the object expression is the first character and the prefix what follows the third, which is right only if the object is one character long. Other text is not split.", "quantifier": "every text", "why_tests_cant": "texts are unbounded", "anchors": ["src/repl.c: is_compound_access, split_compound_access_text"]}
{"id": "C46", "title": "The line evaluated by the REPL is the last preprocessed line", "statement": "From the preprocessor's output without its final character, the REPL takes the text from the last newline on, including that newline, or all of it if there is no newline; output of length less than two ends the program with status 1.", "quantifier": "every preprocessor output", "why_tests_cant": "outputs are unbounded", "anchors": ["src/repl.c: run_cpp_on_line"]}
{"id": "C47", "title": "The preprocessor include options never overflow their buffer and list all directories in order", "statement": "The include option string is the concatenation, in the order given on the command line, of ` -I ` and each directory, and fits exactly in the allocated buffer.", "quantifier": "every list of directories", "why_tests_cant": "lists and lengths are unbounded", "anchors": ["src/preprocess.c: run_cpp, preprocessor_add_include_dir"]}
{"id": "C48", "title": "Properties of one tree node type never share a slot", "statement": "A description is accepted exactly if it is well-formed with base types declared before use. The generated layout gives the k-th property of a base type the k-th field of that base type, declares exactly the fields some node type needs, each once, and so gives the different properties of one node type different fields of their declared types. The last needs that no base type is named t, or like another one (or t) followed by digits.", "quantifier": "every language description", "why_tests_cant": "language descriptions are unbounded", "anchors": ["src/lang.cpp: TypePool::alloc, TypeAllocator::alloc, parsePropList"]}
{"id": "C49", "title": "A break ends the loop whose body directly contains it, and only in that position", "statement": "Executing break as a direct item of a loop's braced body, or as its unbraced body, ends that loop at once and leaves the scope of that iteration open. Inside an if it ends at most the if's arm, and the enclosing block goes on. A loop left by break also ends the loop around it at the end of the current iteration.", "quantifier": "every loop and position of the break", "why_tests_cant": "programs are unbounded", "anchors": ["src/evaluate.c: eval_break, eval_loop_while, eval_loop_for, eval_if, __evaluate"]}
{"id": "C50", "title": "A nested plain block is skipped", "statement": "A brace-enclosed block used directly as a statement inside another block is never executed: it has no effect whatever it contains.", "quantifier": "every block contents", "why_tests_cant": "contents range over all programs", "anchors": ["src/evaluate.c: __evaluate_1, __evaluate"]}
{"id": "C51", "title": "A declaration makes new storage for each variable", "statement": "Executing a declaration of variables of a number or pointer type in a scope that declares none of them gives each, in order, storage of its own that overlaps nothing in use, and changes nothing else. With an initialiser the variable is in scope while its initialiser is evaluated, and then holds its value reduced to the type of the variable. Executed again, a declaration of an initialised pointer does not declare a pointer: `int *p = e;` in a loop body declares an int from the second iteration on.", "quantifier": "every type, every list of declarators, every scope stack and memory", "why_tests_cant": "overlap of storage depends on the allocator; the re-execution defect needs a pointer declared in a loop", "anchors": ["src/evaluate.c: eval_decl, handle_declarator, make_and_map_live_var, make_live_var"]}
{"id": "C52", "title": "Assigning a variable to a wider variable copies neighbouring bytes", "statement": "`x = y` for integer variables reads eight bytes at y whatever y's type is. If x is not wider than y, x gets the value of y reduced to its type, as in C; if x is wider, its upper bytes come from the memory after y.", "quantifier": "every pair of integer types and every memory content", "why_tests_cant": "the bytes after a variable depend on the allocator and are often zero in tests", "anchors": ["src/evaluate.c: assign_integer, eval_assign"]}
{"id": "C53", "title": "Names are split by longest match and reserved words are whole words", "statement": "A letter or underscore followed by letters, digits and underscores up to a character that cannot continue it is read as one name: it is a keyword (or an ignored word such as const) exactly when the whole of it is that reserved word, a type name when it is registered as one, otherwise an identifier; directly after struct or union it is always an identifier.", "quantifier": "every name and every following text", "why_tests_cant": "names are unbounded and the sixty patterns compete for the longest match", "anchors": ["src/lex.m4: keyword rules, identifier rules"]}
{"id": "C54", "title": "A minus sign directly before digits belongs to the number", "statement": "A name followed without space by a minus sign and digits is read as the name and a negative integer, so `x-1` is not a subtraction.", "quantifier": "every name, every digit sequence and following text", "why_tests_cant": "depends on the longest match among all patterns for arbitrary texts", "anchors": ["src/lex.m4: INTEGER rule"]}
{"id": "C55", "title": "A token sequence has at most one tree", "statement": "For each of the two parsers and every sequence of tokens there is at most one derivation, the only conflict (an else after an if without else) being resolved by the precedence declaration, and so at most one tree.", "quantifier": "every token sequence, both grammars", "why_tests_cant": "token sequences are unbounded, and ambiguity of a grammar cannot be excluded by examples", "anchors": ["src/parser.m4: the grammar, %right ')' ELSE"]}
{"id": "C56", "title": "Expressions group by the precedences of C", "statement": "An expression that is parenthesised where the precedences of C require it is parsed to exactly its tree: of two binary operators the first groups first unless the second binds tighter, assignments and conditionals group to the right, casts and prefix and postfix operators bind tighter, and a op= b is parsed as a = a op b.", "quantifier": "every expression and nesting depth, both parsers", "why_tests_cant": "expressions are unbounded", "anchors": ["src/parser.m4: primary_expression ... expression"]}
{"id": "C57", "title": "Signs are never unary, and literals never follow each other", "statement": "In everything the parsers accept, a minus or plus sign stands between a token that can end an operand and one that can start an operand; -x is a syntax error. A literal directly after another literal is a syntax error, and in scripts a literal directly after a name, which is how x-1 is scanned.", "quantifier": "every accepted token sequence, both parsers", "why_tests_cant": "a statement about all accepted inputs and all rejected ones", "anchors": ["src/parser.m4: unary_expression, additive_expression; src/lex.m4: INTEGER"]}
{"id": "C58", "title": "Scripts and lines are parsed to the trees of their statements and declarations", "statement": "Every non-empty script of function definitions, declarations and statements (if, if-else, while, for, blocks, break, return, repl, expressions), and every sequence of lines at the prompt, is parsed to exactly the list of its trees. An else belongs to the nearest if without one, and directly follows a semicolon or closing brace.", "quantifier": "every script and nesting of statements", "why_tests_cant": "programs are unbounded", "anchors": ["src/parser.m4: statement ... cscript_translation_unit, repl_translation_unit"]}
{"id": "C59", "title": "Parts of C that are syntax errors", "statement": "Any input containing switch, case, default, do, goto or continue is a syntax error. An equals sign directly follows an operand, so that *=, %=, &= and |= are syntax errors. The prefix operators ! and ~ cannot be applied to a cast.", "quantifier": "every token sequence, both parsers", "why_tests_cant": "a statement about all inputs containing the token or the combination", "anchors": ["src/parser.m4: %token, assignment_expression, unary_expression"]}
{"id": "C60", "title": "The body of a function defined with a pointer declarator is lost", "statement": "The definition of a function whose declarator starts with a star is parsed to the same tree as the declaration without the body, whatever the body is; without a star the tree contains the body. Of a function in the old style, what is declared between the declarator and the body is not in the tree: declarations with as many nodes give the same tree.", "quantifier": "every function definition", "why_tests_cant": "quantifies over all bodies, parameters and specifiers", "anchors": ["src/parser.m4: function_definition, declarator"]}
{"id": "C61", "title": "Declarators nest outwards from the name", "statement": "In a declaration, arrays and parameter lists after the name are applied before the stars in front of it, and parentheses around a declarator only group and leave no trace in the tree. A bit-field keeps its declarator and its width, and an element of a list initialiser the member it designates.", "quantifier": "every declarator and specifier list", "why_tests_cant": "declarators nest without bound", "anchors": ["src/parser.m4: declarator, direct_declarator, pointer, init_declarator"]}
{"id": "C62", "title": "Every text of a token sequence is scanned as this sequence", "statement": "A text in which each token is written in one of its spellings, with white space and ignored words between them wherever wanted, and with tokens touching only where the next character cannot continue the token, is scanned as exactly these tokens (including the names after struct and union, which are never keywords). An __attribute__ is skipped up to the last )) on its line with everything in between.", "quantifier": "every token sequence and every text of it, both scanners, any set of type names", "why_tests_cant": "texts are unbounded and longest match makes tokens interact with what follows", "anchors": ["src/lex.m4: all rules"]}
{"id": "C63", "title": "A line with an integer expression prints its value", "statement": "At the prompt, a line with a comma expression of integer operators over constants, variables and parentheses prints the value of the last expression in decimal, a newline, and nothing else; apart from garbage collection nothing changes. Division by zero aborts the process. The name of an integer variable prints its value. In general the statement evaluated is the one the second parse makes of the preprocessed line, evaluated once.", "quantifier": "every line, spelling and layout of the expression, every state of the session, every preprocessor that leaves the tokens of the line alone", "why_tests_cant": "the claim is about all expressions, layouts and states, through scanner, two parses, preprocessor, evaluator and printer together", "anchors": ["src/repl.c: repl_do_parse, repl_parse_line, run_cpp_on_line, bic_repl", "src/pretty-printer.c: pretty_print, __pp_1, pp_live_var"]}
{"id": "C64", "title": "Rejected lines change nothing", "statement": "A line that the REPL grammar does not derive prints nothing to the output, evaluates nothing and declares nothing. These are, among others, all lines with a keyword of a statement (if, else, while, for, return, break, do, continue, switch, case, default, goto), all function definitions, and empty lines. A line with two or more statements ends the process with exit(1) before any of them is evaluated.", "quantifier": "every line and every state of the session", "why_tests_cant": "absence of effects over all rejected lines cannot be enumerated", "anchors": ["src/repl.c: repl_do_parse, repl_parse_line", "src/parser.m4: REPL productions"]}
{"id": "C65", "title": "The scanner waits for a tag across lines", "statement": "A line ending in struct or union that could be continued is rejected and leaves the scanner in compound_start_cond; after that any number of lines without letters, underscores and opening braces is ignored. So it is false that a rejected line does not influence what later lines print.", "quantifier": "every such line, every number of ignored lines", "why_tests_cant": "the start condition is hidden state of the generated scanner; its effect lasts for an unbounded number of lines", "anchors": ["src/lex.m4: compound_start_cond", "src/repl.c: repl_do_parse"]}
{"id": "C66", "title": "Typedefs at the prompt do not declare the type", "statement": "Because a line is parsed twice and the first parse already registers the name, the second parse of `typedef specs T;` takes T for a type specifier, and what is evaluated is a declaration without declarator. For `typedef int T;` and the like with a new T the process ends with an error. For `typedef int *T;` and the like the second parse is a syntax error: nothing is declared or evaluated, but the scanner knows T as a type from then on.", "quantifier": "every typedef line of these forms in every state of the session", "why_tests_cant": "depends on the interaction of parser, scanner and name table over both parses", "anchors": ["src/repl.c: repl_parse_line", "src/parser.m4: maybe_add_typenames", "src/typename.c: is_typename"]}
{"id": "C67", "title": "Sessions stay within the reachable states", "statement": "Whatever lines are typed, as long as the REPL goes on, the evaluator is in a state that evaluation of programs reaches, so that the properties proved of reachable states hold at the prompt.", "quantifier": "every sequence of lines, accepted or not", "why_tests_cant": "sessions are unbounded", "anchors": ["src/repl.c: bic_repl"]}
{"id": "C68", "title": "Assignments and declarations at the prompt", "statement": "`x = e;` prints the value of e before its conversion to the type of x, writes only the storage of x, and a following `x;` prints the value converted to the type of x (clipped to 64 bits first). `T x = e;` in a scope that does not declare x prints the name x, declares x with the converted value of e, and a following `x;` prints that value.", "quantifier": "every integer type, expression, layout of the lines and state of the session in which the new nodes have not been rewritten", "why_tests_cant": "composition of two lines over all types, expressions and states", "anchors": ["src/repl.c: bic_repl", "src/evaluate.c: eval_assign, eval_decl", "src/pretty-printer.c: pp_live_var"]}
{"id": "C69", "title": "Variables declared extern", "statement": "`extern T x, *y, ...;` with names that the current scope does not declare and the dynamic linker knows gives each name a variable of its type at the address of the symbol, allocating and writing nothing. An unknown symbol stops the program with an error and declares nothing. A second declaration of a number or pointer in the same scope changes nothing if the types are equal or both are pointers, and is an error otherwise. So it is false that a variable has the type of its last accepted declaration: `extern int *p; extern char *p;` is accepted.", "quantifier": "every list of declarators with any number of stars, every declaration specifiers with extern, every state", "why_tests_cant": "the claim includes what is left unchanged, for all states and linkers", "anchors": ["src/evaluate.c: handle_extern_decl (lines 928-975), resolve_symbol"]}
{"id": "C70", "title": "What the REPL shows of pointers, texts and structures", "statement": "A line `x;` prints: for an integer variable its value in decimal; for a pointer its address in lower-case base 16 after 0x without leading zeros, or (nil); for a pointer to char that points to a terminated text also the text in quotes and parentheses; for a structure or union the members in order, each on a line of its own as `.name = value` with four blanks per level (closing braces are not indented). Nothing changes. A non-null pointer to char with nothing allocated where it points makes the line undefined. A string constant prints its characters in quotes, unescaped: typing what was printed gives the same string if and only if it has no backslash, quote, line feed or NUL; that it always does is false.", "quantifier": "every variable of these types nested to any depth, every state, text and layout of the line", "why_tests_cant": "unbounded nesting, text lengths and addresses; the claim includes that the state is unchanged", "anchors": ["src/pretty-printer.c: pp_live_var, pp_live_compound, __pp_1", "src/repl.c: repl_parse_line", "src/c.lang: lines 255-269", "src/lex.m4: string literals"]}
{"id": "C71", "title": "The command line", "statement": "Every command line is read in exactly one way: words that are not options are ignored, letters can be put together after one dash, -l, -I and -s take the rest of the word or the next word, -- ends the options. The options take effect from left to right: a library is looked for under its name (m is LIBM_SO) and then as libNAME.so, and if neither can be opened the program ends with status 1; -v ends it with status 0, an unknown option or a missing argument with status 1. Nothing after -s FILE is read as an option; the script gets FILE and all words after it as its arguments (unchanged by getopt's reordering), and runs as in C40-C42. With -T nothing is executed and the status is 0. -I has no effect on scripts. That the first argument is always the name of the script is false (`-sFILE`).", "quantifier": "every list of words, every answer of dlopen, every script", "why_tests_cant": "command lines of any length; the claim that later words are not touched is about all of them", "anchors": ["src/main.c: parse_args, open_library, main", "src/cscript.c: parse_cscript, evaluate_cscript", "src/util.c: concat_strings"]}
{"id": "C72", "title": "Assigning to pointers", "statement": "`p = e` for an integer expression e stores the absolute value of e modulo 2^64 in the eight bytes of p. From a variable the eight bytes at its address are copied, so `p = q` makes both point to the same place and `p = &x` makes p point to x. `p = \"text\"` makes p point to a new zero-terminated copy of the text that overlaps nothing in use and belongs to the current scope, or runs out of memory; at the REPL the line prints the text, and `p;` then prints the new address and the same text. Any other value is an error and nothing is stored. Nothing else in use changes and no name gets another meaning. False: that the text lasts as long as p (assigned in an inner scope it is freed with that scope, and `p;` is undefined), that negative numbers are stored modulo 2^64, that `p = p + 0` keeps p, that `p = n` for an int n stores its value.", "quantifier": "every pointer, expression, text, environment and reachable state", "why_tests_cant": "unbounded texts and states; the claim includes everything that is left unchanged", "anchors": ["src/evaluate.c: assign_ptr (lines 1206-1226), eval_assign (lines 1228-1254)", "src/evaluate.c: track_alloc (line 85)"]}
{"id": "C73", "title": "Asking about a name", "statement": "At the REPL `? x` for a variable prints its type in words (\"pointer to a \" for each star; structures behind pointers by their name), its value as in C70, its size in bytes as sizeof gives it, and the file and line of its declaration; the size needs sixteen new bytes, and apart from that nothing in use changes. For structures, functions and enumeration constants it prints the kind, for functions also the place; for a name without meaning `Object not found`. For arrays and for pointers to nameless structures the behaviour is undefined (a null pointer is followed). `? x;` ends the process, since it is two statements; names of types cannot be asked about. False: that the words tell unsigned from signed (unsigned short is called signed short).", "quantifier": "every name, variable, type, line, environment and session", "why_tests_cant": "unbounded types and states; crashes for some kinds of names", "anchors": ["src/inspect.c: inspect, print_object_type, print_object_value, print_sizeof_object, print_object_locus (lines 1-105)", "src/evaluate.c: eval_inspect (lines 1009-1016)", "src/tree.h: tree_description_string (lines 83-99)", "src/c.lang: descriptions (lines 255-270)", "src/parser.m4: repl_statement (lines 1396-1401)"]}
{"id": "C74", "title": "The builtin functions", "statement": "When the interpreter starts, exactly the names __builtin_va_list (the type int), __builtin___strcpy_chk and __builtin___strcat_chk are known. A call of one of the two functions with at most three arguments does, whatever its outcome, what the call of strcpy or strcat with the first two arguments does: the size of the destination is neither evaluated nor checked. If the library function has been declared it is called exactly once with the two values; if not, the program exits with an error.", "quantifier": "every environment, state, designator, argument expression and outcome", "why_tests_cant": "unbounded states and argument expressions; equality of all outcomes, including those that do not return", "anchors": ["src/evaluate.c: handle_builtin_strcpy_chk, handle_builtin_strcat_chk, eval_init_builtins, eval_init (lines 2774-2834)", "src/evaluate.c: eval_fn_call (lines 584-587)"]}
{"id": "C75", "title": "The startup file of the REPL", "statement": "Before its first prompt the REPL runs the file .bic in the user's home directory: the value of HOME, else the directory in the password database. Without a home directory or without a readable file the first prompt comes in the state after initialisation and the session is as without the feature; a user with neither HOME nor a database entry makes it read a null pointer. Otherwise the file is run exactly like a script whose only argument is its path: a numeric result (0, or 254 if gcc fails) is ignored and the prompt comes in the state the script left; a syntax error, a top-level return or an error ends the process with that status before any prompt. The script variables argc and argv are left behind in the innermost scope, so a declaration of argc or argv at the prompt is an error then, although the names are free without a file. Every state of every session, with any file and any lines, is a reachable state in the sense of the other properties.", "quantifier": "all users (HOME and database entry), files, directories, environments, start states, lines typed", "why_tests_cant": "the outcome depends on the environment of the user running it; the leftover variables only show when someone happens to declare the same name, and a test suite runs without such a file", "anchors": ["src/repl.c:433-462", "src/cscript.c:59-106", "src/cscript.c:127-219", "src/main.c:144-165"]}
{"id": "C76", "title": "The textual dump of a tree shows the tree", "statement": "The dump that the option -T prints (the function generated from the language description) determines the tree: two trees with the same dump are equal, and no dump is the beginning of another, in whatever order the generator's hash map lists the properties, provided that strings contain no quote character. Every property of every node is printed after its accessor (prefix, underscore, name), trees one level deeper. The language description of bic meets the conditions on names. Without the proviso it is false: strings are printed without escapes, so one string constant can look like two.", "quantifier": "all language descriptions with distinct blank-free names, all orders of the properties, all trees of any depth and size, all integers and strings without quotes", "why_tests_cant": "a test compares the dumps of a few trees; that no two trees share a dump, for every depth and every order of a hash map, is not testable", "anchors": ["src/gendump.cpp:3-105", "src/tree-dump-primitives.h:10-97", "src/lang.h:21-32", "src/c.lang:1-316"]}
{"id": "C77", "title": "The graph dump of a tree shows all its nodes, but not all their values", "statement": "The graph that tree_dump_dot (option -D) writes has exactly the nodes of the tree with their types, an edge for every property that points to a node, an edge to the first element of every chain, the links between neighbours in a chain, and a label and an edge for every other value; each element of a chain is drawn inside its own cluster. The labels are the values. All values of one node are written as labels of the same graph node, so that only the value of the property that comes last is visible; that the picture shows all values is therefore false: whatever the order in which the generator's hash map lists the properties, two structure types that differ in their size or in whether they are expanded have the same picture.", "quantifier": "all orders of the properties, all trees of any depth and size whose nodes have the properties of their types, all addresses", "why_tests_cant": "a test looks at the graphs of a few trees; that nothing is missing and nothing is added, for trees of any depth and every order of a hash map, is not testable, nor that every order loses a value", "anchors": ["src/gendot.cpp:19-112", "src/tree-dump-primitives.h:10-97", "src/tree.h:154-156", "src/c.lang:1-316"]}
