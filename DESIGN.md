# Formal model of bic (C interpreter/REPL)

Source under study: `/repo/src` (pinned commit).  Everything is in Rocq/Coq 8.16.1, logical name `Verif`.

## Layout

| file (rocq/theories) | what it models |
|---|---|
| `CInt.v`      | LP64 integer types, two's complement wrap, GMP conversions (`mpz_get_si`, `mpz_get_ui`), bytes |
| `Tree.v`      | the `tree` data type generated from `c.lang`, with labels on the nodes the evaluator mutates |
| `State.v`     | evaluator state: memory, allocation blocks, scope stack, overlays for mutated nodes; outcome monad |
| `SpecResolver.v` | generated `resolve_decl_specs_to_type` |
| `Eval.v`      | `evaluate.c` and `function-call.c`, one definition per C function |
| `Gc.v`        | `gc.c` and the generated `mark_object`, on an object graph |
| `ListC.v`     | `list.c`, chain helpers of `tree.h`, on a pointer heap |
| `HashTable.v` | `hash_table.c` |
| `Typename.v`  | `typename.c`, `find_ids_to_map_to_typenames` |
| `Lexer.v`     | the scanner of `lex.m4`: start conditions, all rules with longest match, the actions, `concat_strings`, integer printing |
| `Repl.v`      | `repl.c` completion, wire protocol, last-line extraction; include options of `preprocess.c` |
| `Grammar.v`   | `parser.m4`: both grammars as lists of productions with their actions, and derivations |
| `Main.v`      | `main.c` (`open_library`, `parse_args`, `main`), `concat_strings`, the command of `parse_cscript`; glibc's `getopt` with its reordering of argv |
| `Session.v`   | the loop of `repl.c` (scan, parse, preprocess, parse again, evaluate, print), `pretty-printer.c` and `inspect.c`; the parser's decision is a relation over the grammar of `Grammar.v` |
| `CScript.v`   | `cscript.c` |
| `Dump.v`      | the function `tree_dump` generated by `gendump.cpp`, for any language description, and `tree-dump-primitives.h` |
| `Dot.v`       | the function `tree_dump_dot` generated by `gendot.cpp`: the statements of the graph, not their text |
| `Startup.v`   | `evaluate_startup_file` and the start of `bic_repl` in `repl.c` |
| `Lang.v`      | `lang.cpp`: the parser of language descriptions (on tokens) and the allocation of fields; `CLang.v` is `c.lang` itself |
| `Spec*.v`, `ListCSpec.v` | small independent specifications used in statements (`SpecRun`: outcomes of evaluation; `SpecExpr`: integer expressions; `SpecTypes`: type specifiers; `SpecNames`, `SpecScope`: names and scopes; `SpecVars`: variables; `SpecControl`, `SpecStmt`: loops, calls, returns; `SpecCalls`: parameters; `SpecStatic`: static storage; `SpecPtr`, `SpecEnum`, `SpecStruct`: pointers and arrays, enumerations and typedefs, structures and unions; `SpecExt`: external calls; `SpecExtern`: external variables; `SpecSyntax`, `SpecParser`: programs, their tokens and their trees; `SpecSession`: lines and answers; `SpecPrint`: what is shown of a value; `SpecMain`: command lines; `SpecAssign`: texts assigned to pointers; `SpecInspect`: what is told about names; `SpecBuiltin`: names known from the start; `SpecStartup`: the user's home directory; `SpecDump`: trees of a description; `SpecDot`: what a picture of a tree shows).  `SpecResolver.v` is part of the model |
| `*Facts.v`, `EvalInv.v`, `RunRules.v`, `SyntaxProps.v` | lemmas |
| `LR.v`, `GrammarTables.v` | proof method for the grammars: an LR automaton per grammar (generated data, not trusted) and the theorem that an automaton passing a computable check finds every derivation |
| `Test*.v`     | concrete environment and programs for the examples beside the theorems; not part of the model |
| `Props*.v`    | the property theorems, each followed by `Print Assumptions` and by examples |

## Modelling decisions

* **Outcomes.** Evaluation returns one of: a value with new state; a `longjmp` in flight; an error exit
  (`eval_die`, failed `assert`, `exit`); undefined behaviour (NULL dereference, access to memory that is not
  allocated, division by zero inside GMP); out of memory, with the number of bytes asked for and the state
  (`NoMemory`; C20_out_of_memory: only where malloc refused them); out of fuel; `Unmodelled` (a call-back into an
  interpreted function that passes a string).  Statements never count out-of-fuel or `Unmodelled` as success.
* **Recursion.** The C functions are mutually recursive through `__evaluate_1`.  Each C function is a separate
  definition taking the recursive functions as a record (`knot`); the evaluator is the fuel-indexed
  fixed point of these.  Theorems quantify over all fuel, and fuel monotonicity is proved.
* **Mutable syntax nodes.** `return` nodes, declarator assignments, `static` declarations and compound
  declarations are overwritten by the evaluator; these node types carry a label and the state has an
  overlay from labels to the new contents.
* **Memory.** Flat byte-addressed memory, little endian LP64, with a list of allocated blocks.  The initial content of
  fresh memory is arbitrary (memory is a total function quantified over).  Access outside
  allocated blocks is undefined behaviour.
* **Garbage collection.** In the evaluator model, at every node allocation an oracle may release any set of blocks
  that are not tracked by a scope on the stack, the include scope or a static declaration.  The oracle
  is universally quantified.  This over-approximates the conservative collector.  The collector
  algorithm itself is modelled separately in `Gc.v`.
* **Outside world.** `dlsym`, external functions (memory writes, result bytes, call-backs into interpreted
  functions) and header parsing are given by an environment record that every theorem quantifies over.

## Properties: what is modelled and how it is proved

| id | model | method |
|---|---|---|
| C01 | Eval | induction over the expression fragment against a denotation on Z |
| C02, C03, C04, C05, C06 | Eval, CInt | step-by-step evaluation lemma for the node plus arithmetic modulo 2^n |
| C07, C08, C09 | Eval | case analysis, skipped operand universally quantified |
| C10, C11 | Eval | induction on fuel (iterations) with an arbitrary invariant |
| C12, C13 | Eval | evaluation lemmas for calls, label overlay |
| C14, C15, C20 | Eval | state invariants by induction over fuel for the whole evaluator |
| C16, C17, C18, C19 | Eval | evaluation lemmas, induction over parameter lists |
| C21, C22, C25 | Eval | evaluation lemmas plus memory frame lemmas |
| C23, C24 | Eval | induction over member lists against a layout specification |
| C26, C27 | Eval | induction over lists |
| C28 | SpecResolver | counting argument over multisets |
| C29 | Eval (function-call.c) | induction over argument lists |
| C30, C31, C32 | Gc | graph reachability, induction over operation sequences |
| C33, C34 | ListC | refinement of heap operations to lists |
| C35 | HashTable | induction over insertions |
| C36 | Typename | induction over operation sequences |
| C37, C38, C39 | Lexer | round-trip by induction over digit/character lists |
| C40, C41, C42 | CScript, Eval | relation between a script and the list of items it executes; loop invariant for argv |
| C43 - C46 | Repl | round trip, induction over texts |
| C47 | Repl | induction over directory lists |
| C48 | Lang | parser round trip, exact pool contents by induction over property lists |
| C49, C50, C51, C52 | Eval | evaluation lemmas |
| C53, C54, C62 | Lexer | longest-match argument over all rules; induction over the tokens of a text |
| C55 | Grammar | determinism of an LR automaton that follows every derivation; the automata are checked by computation |
| C56, C58, C60, C61 | Grammar | derivations built by induction over programs; uniqueness by C55 |
| C57, C59 | Grammar | first/last/adjacent token sets, checked for every production, induction over derivations |
| C63 - C68 | Session | composition of C62, C55/C58, C46, and the evaluation lemmas; sessions by induction over the lines |
| C69 | Eval | evaluation lemmas, induction over the declarators |
| C70 | Session, Lexer | mutual induction over the shown value; uniqueness of numerals; what the scanner makes of a string constant |
| C71 | Main, CScript | invariant of getopt's state over the words, induction on the number of characters |
| C72 | Eval, Session | malloc, store and track_alloc followed relative to the state before; composition with C70 |
| C73 | Eval, Session | inspection unfolded to printing and one sizeof evaluation, followed relative to the state before; outcomes do not depend on the fuel |
| C74 | Eval | the handler unfolded to a call of the library function; equivalence of all outcomes by the monotonicity in the fuel |
| C75 | Startup, CScript, Session | the startup file reduced to a script (C40 - C42); restored scopes (C14) for what is left behind |
| C76 | Dump, CLang | unique readability by induction over the trees that fit a description; the order of properties is any permutation |
| C77 | Dot, CLang | the statements of the graph characterised by induction over the tree; the label that counts by the last property in the order |

## Trusted base

* The Coq 8.16.1 kernel (no native compiler).
* Axioms: none.  `Print Assumptions` under every property theorem prints "Closed under the global context".
  The checker's list of the whole environment also names seven parameters of a module type of Coq's own `ssrunder` (`Under_rel`), which come with loading the
  standard library's ssreflect plugin files; no theorem depends on them.
* That the definitions transcribe the C code; each definition cites file and lines.

## Seeded bugs

`seeded/LOG.jsonl` has one line per wrong version of the model, each built in a scratch copy with `make -k`.  `failed_in` names the lemmas at which the
build stopped.  `theorems_failed` lists the property theorems whose proofs use one of those lemmas, directly or not.  It is read off the dependencies: these
theorems no longer have a proof, but it was not shown for each of them that its statement has become false, and a lemma can also fail because its script
follows the shape of the definition.  So the list can be longer than the list of statements that are really broken.  An empty `failed_in` is a bug that no theorem noticed;
`theorems_tightened` and `note` say what was done about it.  Where the script of a lemma broke although the lemma stayed true, it was assumed in the
scratch copy, and `note` or `edit` says so.

## Not modelled

Bison's and flex's tables (the parser is its grammar, the scanner its rules; recovery after a syntax error is not modelled), the system preprocessor, readline, libffi internals, `dlopen`, the text of the graph statements of the `-D` dump, the connection of the `-T` and `-D` dumps (`Dump.v`, `Dot.v`, on generic nodes) to the trees of `Tree.v`,
line/column loci (the file and line that `?` prints are arbitrary, `h_place`), long double arithmetic, text of error messages.
