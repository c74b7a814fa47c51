(** The language description of bic, src/c.lang, as a list of definitions (a transcription of the whole file). *)
From Coq Require Import String List.
From Verif Require Import SpecLang.
Import ListNotations.
Local Open Scope string_scope.

(** src/c.lang:1-316. *)
Definition c_lang : list def := [
  Bases [("integer", "mpz_t"); ("ffloat", "mpf_t"); ("string", "char *"); ("jmp_buf", "jmp_buf"); ("ptr", "void *"); ("sz", "size_t"); ("flag", "bool"); ("ffi_cif", "ffi_cif *"); ("ffi_types", "ffi_type **"); ("ffi_closure", "ffi_closure *"); ("comp_decl_type", "compound_type"); ("live_var_val", "union value *")];
  Node "T_INTEGER" "Constant integer" (Some ("tINT", [Of "VAL" "integer"]));
  Node "T_FLOAT" "Constant floating point" (Some ("tFLOAT", [Of "VAL" "ffloat"]));
  Node "T_STRING" "Constant string" (Some ("tSTRING", [Of "VAL" "string"]));
  Node "T_P_INC" "Increment (postfix)" (Some ("tPINC", [Tree "EXP"]));
  Node "T_P_DEC" "Decrement (postfix)" (Some ("tPDEC", [Tree "EXP"]));
  Node "T_INC" "Increment (unary)" (Some ("tINC", [Tree "EXP"]));
  Node "T_DEC" "Decrement (unary)" (Some ("tDEC", [Tree "EXP"]));
  Node "T_NEGATE" "Negate" (Some ("tNEGATE", [Tree "EXP"]));
  Node "T_ONES_COMP" "One's Complement" (Some ("tONES_COMP", [Tree "EXP"]));
  Node "T_SIZEOF" "Size of" (Some ("tSZOF", [Tree "EXP"]));
  Node "T_IDENTIFIER" "Identifier" (Some ("tID", [Of "STR" "string"]));
  Node "T_POINTER" "Pointer" (Some ("tPTR", [Tree "EXP"; Tree "QUALIFIERS"]));
  Node "T_INSPECT" "Inspect Identifier" (Some ("tINSPECT", [Tree "EXP"]));
  Node "T_MUL" "Multiply" (Some ("tMUL", [Tree "LHS"; Tree "RHS"]));
  Node "T_DIV" "Divide" (Some ("tDIV", [Tree "LHS"; Tree "RHS"]));
  Node "T_MOD" "Modulus" (Some ("tMOD", [Tree "LHS"; Tree "RHS"]));
  Node "T_ADD" "Addition" (Some ("tADD", [Tree "LHS"; Tree "RHS"]));
  Node "T_SUB" "Subtraction" (Some ("tSUB", [Tree "LHS"; Tree "RHS"]));
  Node "T_LSHIFT" "Left Shift" (Some ("tLSHIFT", [Tree "LHS"; Tree "RHS"]));
  Node "T_RSHIFT" "Right Shift" (Some ("tRSHIFT", [Tree "LHS"; Tree "RHS"]));
  Node "T_LT" "Less than" (Some ("tLT", [Tree "LHS"; Tree "RHS"]));
  Node "T_GT" "Greater than" (Some ("tGT", [Tree "LHS"; Tree "RHS"]));
  Node "T_LTEQ" "Less than or equal" (Some ("tLTEQ", [Tree "LHS"; Tree "RHS"]));
  Node "T_GTEQ" "Less than or equal" (Some ("tGTEQ", [Tree "LHS"; Tree "RHS"]));
  Node "T_EQ" "Equal" (Some ("tEQ", [Tree "LHS"; Tree "RHS"]));
  Node "T_N_EQ" "Not Equal" (Some ("tN_EQ", [Tree "LHS"; Tree "RHS"]));
  Node "T_L_OR" "Logical OR" (Some ("tL_OR", [Tree "LHS"; Tree "RHS"]));
  Node "T_I_OR" "Inclusive OR" (Some ("tI_OR", [Tree "LHS"; Tree "RHS"]));
  Node "T_X_OR" "Exclusive OR" (Some ("tX_OR", [Tree "LHS"; Tree "RHS"]));
  Node "T_I_AND" "Inclusive AND" (Some ("tI_AND", [Tree "LHS"; Tree "RHS"]));
  Node "T_L_AND" "Logical AND" (Some ("tL_AND", [Tree "LHS"; Tree "RHS"]));
  Node "T_COMMA" "Comma operator" (Some ("tCOMMA", [Tree "LHS"; Tree "RHS"]));
  Node "T_IF" "If" (Some ("tIF", [Tree "COND"; Tree "TRUE_STMTS"; Tree "ELSE_STMTS"]));
  Node "T_ASSIGN" "Assignment" (Some ("tASSIGN", [Tree "LHS"; Tree "RHS"]));
  Node "T_CAST" "Cast" (Some ("tCAST", [Tree "NEWTYPE"; Tree "EXP"]));
  Node "T_TYPEDEF" "typedef storage class specifier" None;
  Node "T_EXTERN" "external storage class specifier" None;
  Node "T_STATIC" "static storage class specifier" None;
  Node "T_AUTO" "auto storage class specifier" None;
  Node "T_REGISTER" "register storage class specifier" None;
  Node "T_VOID_TS" "void" None;
  Node "T_CHAR_TS" "char" None;
  Node "T_SHORT_TS" "short" None;
  Node "T_INT_TS" "integer" None;
  Node "T_LONG_TS" "long" None;
  Node "T_FLOAT_TS" "float" None;
  Node "T_DOUBLE_TS" "double" None;
  Node "T_SIGNED_TS" "signed" None;
  Node "T_UNSIGNED_TS" "unsigned" None;
  Node "T_BOOL_TS" "bool" None;
  Node "T_CONST" "const type qualifier" None;
  Node "T_RESTRICT" "restrict type qualifier" None;
  Node "T_VOLATILE" "volatile type qualifier" None;
  Node "T_EMPTY" "Empty block" None;
  Node "T_EXPR_LIST" "Expression List" (Some ("tEXPR_LIST", [Tree "CHAIN"]));
  Node "T_INLINE" "inline function specifier" None;
  Node "T_BITFIELD" "Bitfield declarator" (Some ("tBITFIELD", [Tree "SZ"; Tree "DECLARATOR"]));
  Node "T_COMP_ACCESS" "Compound Access" (Some ("tCOMP_ACCESS", [Tree "OBJ"; Tree "MEMBER"]));
  Node "T_ARRAY_ACCESS" "Array Access" (Some ("tARR_ACCESS", [Tree "OBJ"; Tree "IDX"]));
  Node "T_ADDR" "Address Operator" (Some ("tADDR", [Tree "EXP"]));
  Node "T_DEREF" "Address Dereference" (Some ("tDEREF", [Tree "EXP"]));
  Node "T_ARRAY" "Array Declaration" (Some ("tARRAY", [Tree "DECL"; Tree "QUALIFIERS"; Tree "SZ"]));
  Node "T_ARRAY_TYPE" "Array Type" (Some ("tARRAY_TYPE", [Tree "BASE_TYPE"; Tree "SZ"]));
  Node "T_DECL" "Declaration" (Some ("tDECL", [Tree "SPECS"; Tree "DECLS"; Of "OFFSET" "sz"]));
  Node "T_TYPE_SPECIFIER" "Type specifier" (Some ("tTYPE_SPECIFIER", [Tree "SPECS"; Tree "DECL"]));
  Node "T_DECL_COMPOUND" "Compound Declataion" (Some ("tCOMP_DECL", [Tree "ID"; Tree "DECLS"; Of "SZ" "sz"; Of "EXPANDED" "flag"; Of "TYPE" "comp_decl_type"]));
  Node "T_FN" "Function" (Some ("tFN", [Tree "DECL"; Tree "ARGS"; Tree "RET_TYPE"; Tree "STMTS"]));
  Node "T_BUILTIN" "Builtin function handler" (Some ("tBUILTIN", [Of "HANDLER" "ptr"]));
  Node "T_FN_CALL" "Function Call" (Some ("tFNCALL", [Tree "ID"; Tree "ARGS"]));
  Node "T_CLOSURE" "Closure Call" (Some ("tCLOSURE", [Tree "ARG_TYPES"; Tree "RET_TYPE"; Tree "FN"; Of "CIF" "ffi_cif"; Of "TYPES" "ffi_types"; Of "CLOSURE" "ffi_closure"]));
  Node "T_FN_ARG" "Function Argument" (Some ("tFNARG", [Tree "EXP"]));
  Node "T_INFIX" "Infix Operator" (Some ("tINFIX", [Tree "COND"; Tree "TRUE_STMT"; Tree "FALSE_STMT"]));
  Node "T_LOOP_FOR" "For loop" (Some ("tFLOOP", [Tree "INIT"; Tree "COND"; Tree "AFTER"; Tree "STMTS"]));
  Node "T_LOOP_WHILE" "While loop" (Some ("tWLOOP", [Tree "COND"; Tree "STMTS"]));
  Node "T_RETURN" "Function return" (Some ("tRET", [Tree "EXP"]));
  Node "T_BREAK" "Break statement" None;
  Node "T_REPL" "Switch to REPL" None;
  Node "T_ENUMERATOR" "Enumerator" (Some ("tENUM", [Tree "NAME"; Tree "ENUMS"]));
  Node "T_VARIADIC" "Variadic Function Argument" None;
  Node "T_LIVE_VAR" "Live Variable" (Some ("tLV", [Tree "TYPE"; Of "VAL" "live_var_val"; Of "IS_ARRAY" "flag"; Of "ARRAY_SZ" "sz"]));
  Node "T_LIVE_COMPOUND" "Live Compound" (Some ("tLV_COMP", [Tree "DECL"; Tree "MEMBERS"; Of "BASE" "ptr"]));
  Node "CHAIN_HEAD" "Tree Chain Head" None;
  Node "E_CTX" "Evaluator Context" (Some ("tECTX", [Tree "ID_MAP"; Tree "STRUCT_ID_MAP"; Tree "UNION_ID_MAP"; Tree "PARENT_CTX"; Tree "ALLOC_CHAIN"; Tree "NAME"; Tree "RETVAL"; Of "JMP_BUF" "jmp_buf"; Of "SHOULD_BREAK" "flag"; Of "IS_FN_CALL" "flag"; Of "IS_STATIC" "flag"]));
  Node "E_ALLOC" "Evaluator allocation" (Some ("tALLOC", [Of "PTR" "ptr"]));
  Node "E_INCOMP_TYPE" "Incompletel type" None;
  Node "E_MAP" "Evaluator map" (Some ("tEMAP", [Tree "LEFT"; Tree "RIGHT"]));
  Node "CPP_INCLUDE" "C preprocessor include directive" (Some ("tCPP_INCLUDE", [Of "STR" "string"]));
  Node "D_T_VOID" "Void type" None;
  Node "T_EXT_FUNC" "External function" (Some ("tEXT_FUNC", [Tree "FN"]));
  CNode "D_T_CHAR" "signed char" "char" "d" "ival" "ffi_type_schar" None;
  CNode "D_T_SHORT" "signed short" "short" "hd" "ival" "ffi_type_sshort" None;
  CNode "D_T_INT" "signed integer" "int" "d" "ival" "ffi_type_sint" None;
  CNode "D_T_LONG" "signed long" "long" "ld" "ival" "ffi_type_slong" None;
  CNode "D_T_LONGLONG" "signed long long" "long long" "lld" "ival" "ffi_type_slong" None;
  CNode "D_T_UCHAR" "unsigned char" "unsigned char" "u" "ival" "ffi_type_uchar" None;
  CNode "D_T_USHORT" "signed short" "unsigned short" "hu" "ival" "ffi_type_ushort" None;
  CNode "D_T_UINT" "unsigned integer" "unsigned int" "u" "ival" "ffi_type_uint" None;
  CNode "D_T_ULONG" "unsigned long" "unsigned long" "lu" "ival" "ffi_type_ulong" None;
  CNode "D_T_ULONGLONG" "unsigned long long" "unsigned long long" "llu" "ival" "ffi_type_ulong" None;
  CNode "D_T_FLOAT" "float" "float" "f" "dval" "ffi_type_float" None;
  CNode "D_T_DOUBLE" "double" "double" "f" "dval" "ffi_type_double" None;
  CNode "D_T_LONGDOUBLE" "long double" "long double" "Lf" "dval" "ffi_type_longdouble" None;
  CNode "D_T_PTR" "pointer" "void *" "p" "ival" "ffi_type_pointer" (Some ("tDTPTR", [Tree "EXP"]));
  Spec "D_T_CHAR" [["T_CHAR_TS"]; ["T_SIGNED_TS"; "T_CHAR_TS"]];
  Spec "D_T_SHORT" [["T_SHORT_TS"]; ["T_SIGNED_TS"; "T_SHORT_TS"]; ["T_SHORT_TS"; "T_INT_TS"]; ["T_SIGNED_TS"; "T_SHORT_TS"; "T_INT_TS"]];
  Spec "D_T_INT" [["T_INT_TS"]; ["T_SIGNED_TS"]; ["T_SIGNED_TS"; "T_INT_TS"]];
  Spec "D_T_LONG" [["T_LONG_TS"]; ["T_SIGNED_TS"; "T_LONG_TS"]; ["T_LONG_TS"; "T_INT_TS"]; ["T_SIGNED_TS"; "T_LONG_TS"; "T_INT_TS"]];
  Spec "D_T_LONGLONG" [["T_LONG_TS"; "T_LONG_TS"]; ["T_SIGNED_TS"; "T_LONG_TS"; "T_LONG_TS"]; ["T_LONG_TS"; "T_LONG_TS"; "T_INT_TS"]; ["T_SIGNED_TS"; "T_LONG_TS"; "T_LONG_TS"; "T_INT_TS"]];
  Spec "D_T_UCHAR" [["T_UNSIGNED_TS"; "T_CHAR_TS"]];
  Spec "D_T_USHORT" [["T_UNSIGNED_TS"; "T_SHORT_TS"]; ["T_UNSIGNED_TS"; "T_SHORT_TS"; "T_INT_TS"]];
  Spec "D_T_UINT" [["T_UNSIGNED_TS"]; ["T_UNSIGNED_TS"; "T_INT_TS"]];
  Spec "D_T_ULONG" [["T_UNSIGNED_TS"; "T_LONG_TS"]; ["T_UNSIGNED_TS"; "T_LONG_TS"; "T_INT_TS"]];
  Spec "D_T_ULONGLONG" [["T_UNSIGNED_TS"; "T_LONG_TS"; "T_LONG_TS"]; ["T_UNSIGNED_TS"; "T_LONG_TS"; "T_LONG_TS"; "T_INT_TS"]];
  Spec "D_T_FLOAT" [["T_FLOAT_TS"]];
  Spec "D_T_DOUBLE" [["T_DOUBLE_TS"]];
  Spec "D_T_LONGDOUBLE" [["T_LONG_TS"; "T_DOUBLE_TS"]];
  Spec "D_T_VOID" [["T_VOID_TS"]];
  Ignore "T_EXTERN";
  Ignore "T_TYPEDEF";
  Ignore "T_STATIC";
  Self "T_IDENTIFIER";
  Self "T_DECL_COMPOUND";
  Self "T_ENUMERATOR"
].
