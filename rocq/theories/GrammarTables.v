(** The LALR(1) automata of the two grammars, as data for LR.v.  A proof device: computed outside Coq from the grammar, checked here. *)
From Coq Require Import NArith List String Ascii.
From Verif Require Import Lexer Grammar LR.
Import ListNotations.
Local Open Scope string_scope.
Local Open Scope nat_scope.

(** The terminals of the grammar. *)
Definition repl_terminals : list sym :=
  [C "!"; C "%"; C "&"; C "("; C ")"; C "*"; C "+"; C ","; C "-"; C "."; C "/"; C ":"; C ";"; C "<"; C "="; C ">"; C "?"; C "["; C "]"; C "^"; C "{"; C "|"; C "}"; C "~"; K "ADD_ASSIGN"; K "AUTO"; K "BOOL"; K "BOOL_OP_AND"; K "BOOL_OP_OR"; K "CHAR"; K "CONST"; K "CONST_STRING"; K "C_PRE_INC"; K "DEC"; K "DIV_ASSIGN"; K "DOUBLE"; K "ELLIPSIS"; K "ENUM"; K "EQUATE"; K "EXTERN"; K "FLOAT"; K "FLOAT_CST"; K "GREATER_OR_EQUAL"; K "IDENTIFIER"; K "INC"; K "INLINE"; K "INT"; K "INTEGER"; K "LESS_OR_EQUAL"; K "LONG"; K "LSHIFT_ASSIGN"; K "NOT_EQUATE"; K "PTR_ACCESS"; K "REGISTER"; K "RESTRICT"; K "RSHIFT_ASSIGN"; K "SHIFT_LEFT"; K "SHIFT_RIGHT"; K "SHORT"; K "SIGNED"; K "SIZEOF"; K "STATIC"; K "STRUCT"; K "SUB_ASSIGN"; K "TYPEDEF"; K "TYPE_NAME"; K "UNION"; K "UNSIGNED"; K "VOID"; K "VOLATILE"; K "XOR_ASSIGN"].
(** The first tokens of the nonterminals. *)
Definition repl_firsts : list N :=
  [303469504233488; 303469504233488; 2306181680286662746; 2306181680286662746; 2306181680286662746; 2306181680286662746; 2306181680286662746; 2306181680286662746; 2306181680286662746; 2306181680286662746; 2306181680286662746; 2306181680286662746; 2306181680286662746; 2306181680286662746; 2306181680286662746; 2306181680286662746; 2306181680286662746; 2306181680286662746; 2306181680286662746; 2339909577446818578432; 2339909577446818578432; 2339909577446818578432; 17592186044496; 17592186044496; 41523189663934709760; 1117758667897561939968; 156797324626531188736; 156797324626531188736; 2298386317414139691008; 2298386317414139691008; 2298386317414139691008; 2298386317414139691008; 17592186048592; 17592186048592; 274877906944; 17592186044416; 17592186044416; 1180627649516577751040; 70368744177664; 17592186044496; 17592186044432; 64; 1180627649516577751040; 2339909577446818578432; 2339909577446818578432; 2339909577446818578432; 17592186044416; 2298386317414139691008; 262224; 262160; 2306181680288759898; 2306181680289023066; 263168; 263168; 263168; 2306181680286670938; 2342215759135695315034; 2342215759135695315034; 0; 0; 0; 0; 0; 0; 0; 0; 0; 0; 0; 0]%N.
(** The states. *)
Definition repl_states : list lrstate := [
   mkst [(0, 0, 0x81073a288c3257efdc%N); (1, 0, 0x81073a288c3257efdc%N); (2, 0, 0x81073a288c3257efdc%N); (3, 0, 0x81073a288c3257efdc%N); (4, 0, 0x81073a288c3257efdc%N); (5, 0, 0x81073a288c3257efdc%N); (6, 0, 0x81073a288c3257efdc%N); (7, 0, 0x81073a288c3257efdc%N); (8, 0, 0x81073a288c3257efdc%N); (9, 0, 0x81073a288c3257efdc%N); (10, 0, 0x81073a288c3257efdc%N); (11, 0, 0x81073a288c3257efdc%N); (12, 0, 0x81073a288c3257efdc%N); (15, 0, 0x81071a08883253ebcc%N); (16, 0, 0x81071a08883253ebcc%N); (17, 0, 0x81071a08883253ebcc%N); (18, 0, 0x81071a08883253ebcc%N); (19, 0, 0x81071a08883253ebcc%N); (20, 0, 0x81071a08883253ebcc%N); (21, 0, 0x81071a08883253ebcc%N); (22, 0, 0x81071a08883253ebcc%N); (23, 0, 0x81071a08883253ebcc%N); (24, 0, 0x612088030536bcc%N); (25, 0, 0x612088030536bcc%N); (26, 0, 0x612088030536bcc%N); (27, 0, 0x612088030536bcc%N); (28, 0, 0x612088030536bcc%N); (29, 0, 0x612088030536bcc%N); (30, 0, 0x612088030536388%N); (31, 0, 0x612088030536388%N); (32, 0, 0x612088030536388%N); (33, 0, 0x612088030536108%N); (34, 0, 0x612088030536108%N); (35, 0, 0x612088030536108%N); (36, 0, 0x12088030536108%N); (37, 0, 0x12088030536108%N); (38, 0, 0x12088030536108%N); (39, 0, 0x12088030536108%N); (40, 0, 0x12088030536108%N); (41, 0, 0x10008030522108%N); (42, 0, 0x10008030522108%N); (43, 0, 0x10008030522108%N); (44, 0, 0x30522108%N); (45, 0, 0x30522108%N); (46, 0, 0x30522100%N); (47, 0, 0x30522100%N); (48, 0, 0x30422100%N); (49, 0, 0x30422100%N); (50, 0, 0x30022100%N); (51, 0, 0x30022100%N); (52, 0, 0x20022100%N); (53, 0, 0x20022100%N); (54, 0, 0x2100%N); (55, 0, 0x2100%N); (57, 0, 0x2100%N); (58, 0, 0x2100%N); (59, 0, 0x2100%N); (60, 0, 0x2100%N); (61, 0, 0x2100%N); (62, 0, 0x2100%N); (63, 0, 0x2100%N); (64, 0, 0x2100%N); (65, 0, 0x2100%N); (66, 0, 0x2100%N); (67, 0, 0x7ef8c5f757cd02205b%N); (68, 0, 0x7ef8c5f757cd02205b%N); (69, 0, 0x7ed8c4d350cc002050%N); (70, 0, 0x7ed8c4d350cc002050%N); (71, 0, 0x7ed8c4d350cc002050%N); (72, 0, 0x7ed8c4d350cc002050%N); (73, 0, 0x7ed8c4d350cc002050%N); (74, 0, 0x7ed8c4d350cc002050%N); (79, 0, 0x7ed8c4d350cc002050%N); (80, 0, 0x7ed8c4d350cc002050%N); (81, 0, 0x7ed8c4d350cc002050%N); (82, 0, 0x7ed8c4d350cc002050%N); (83, 0, 0x7ed8c4d350cc002050%N); (84, 0, 0x7ed8c4d350cc002050%N); (85, 0, 0x7ed8c4d350cc002050%N); (86, 0, 0x7ed8c4d350cc002050%N); (87, 0, 0x7ed8c4d350cc002050%N); (88, 0, 0x7ed8c4d350cc002050%N); (89, 0, 0x7ed8c4d350cc002050%N); (90, 0, 0x7ed8c4d350cc002050%N); (91, 0, 0x7ed8c4d350cc002050%N); (92, 0, 0x7ed8c4d350cc002050%N); (93, 0, 0x7ed8c4d350cc002050%N); (94, 0, 0x7ed8c4d350cc002050%N); (95, 0, 0x7ed8c4d350cc002050%N); (96, 0, 0x7ed8c4d350cc002050%N); (97, 0, 0x7ed8c4d350cc002050%N); (98, 0, 0x7ed8c4d350cc002050%N); (99, 0, 0x7ed8c4d350cc002050%N); (100, 0, 0x100000200000%N); (101, 0, 0x100000200000%N); (115, 0, 0x7ed8c4d350cc002050%N); (116, 0, 0x7ed8c4d350cc002050%N); (117, 0, 0x7ed8c4d350cc002050%N); (118, 0, 0x7ed8c4d350cc002050%N); (119, 0, 0x7ed8c4d350cc002050%N); (124, 0, 0x7ed8c4d350cc002050%N); (125, 0, 0x7ed8c4d350cc002050%N); (126, 0, 0x7ed8c4d350cc002050%N); (127, 0, 0x7ed8c4d350cc002050%N); (186, 0, 0x7ef8c5f757cd02205b%N); (187, 0, 0x7ef8c5f757cd02205b%N); (188, 0, 0x7ef8c5f757cd02205b%N); (189, 0, 0x7ef8c5f757cd02205b%N); (190, 0, 0x7ef8c5f757cd02205b%N); (191, 0, 0x7ef8c5f757cd02205b%N); (192, 0, 0x7ef8c5f757cd02205b%N); (193, 0, 0x7ef8c5f757cd02205b%N)]
     [(1%N, 1); (3%N, 2); (4%N, 3); (6%N, 4); (13%N, 5); (17%N, 6); (24%N, 7); (26%N, 8); (27%N, 9); (30%N, 10); (31%N, 11); (32%N, 12); (33%N, 13); (34%N, 14); (36%N, 15); (38%N, 16); (40%N, 17); (41%N, 18); (42%N, 19); (44%N, 20); (45%N, 21); (46%N, 22); (47%N, 23); (48%N, 24); (50%N, 25); (54%N, 26); (55%N, 27); (59%N, 28); (60%N, 29); (61%N, 30); (62%N, 31); (63%N, 32); (65%N, 33); (66%N, 34); (67%N, 35); (68%N, 36); (69%N, 37); (70%N, 38); (1000%N, 58); (1001%N, 57); (1003%N, 68); (1004%N, 42); (1005%N, 56); (1006%N, 39); (1007%N, 62); (1008%N, 59); (1009%N, 48); (1010%N, 40); (1011%N, 49); (1012%N, 53); (1013%N, 54); (1014%N, 55); (1015%N, 43); (1017%N, 41); (1018%N, 50); (1019%N, 44); (1020%N, 46); (1021%N, 45); (1024%N, 63); (1025%N, 67); (1026%N, 65); (1027%N, 64); (1034%N, 47); (1037%N, 66); (1038%N, 52); (1055%N, 51); (1056%N, 60); (1057%N, 61)];
   mkst [(0, 0, 0x81073a288c32dffffc%N); (1, 0, 0x81073a288c32dffffc%N); (2, 0, 0x81073a288c32dffffc%N); (3, 0, 0x81073a288c32dffffc%N); (4, 0, 0x81073a288c32dffffc%N); (5, 0, 0x81073a288c32dffffc%N); (6, 0, 0x81073a288c32dffffc%N); (7, 0, 0x81073a288c32dffffc%N); (8, 0, 0x81073a288c32dffffc%N); (9, 0, 0x81073a288c32dffffc%N); (10, 0, 0x81073a288c32dffffc%N); (11, 0, 0x81073a288c32dffffc%N); (12, 0, 0x81073a288c32dffffc%N); (15, 0, 0x81071a088832dbfbec%N); (16, 0, 0x81071a088832dbfbec%N); (17, 0, 0x81071a088832dbfbec%N); (18, 0, 0x81071a088832dbfbec%N); (18, 1, 0x81071a088832dbfbec%N); (19, 0, 0x81071a088832dbfbec%N); (20, 0, 0x81071a088832dbfbec%N); (21, 0, 0x81071a088832dbfbec%N); (22, 0, 0x81071a088832dbfbec%N); (23, 0, 0x81071a088832dbfbec%N)]
     [(1%N, 1); (3%N, 2); (4%N, 69); (6%N, 4); (24%N, 7); (32%N, 12); (34%N, 14); (42%N, 19); (44%N, 20); (45%N, 21); (48%N, 24); (61%N, 30); (1000%N, 58); (1001%N, 57); (1003%N, 70)];
   mkst [(0, 0, 0x81073a288c32dffffc%N); (1, 0, 0x81073a288c32dffffc%N); (2, 0, 0x81073a288c32dffffc%N); (3, 0, 0x81073a288c32dffffc%N); (4, 0, 0x81073a288c32dffffc%N); (5, 0, 0x81073a288c32dffffc%N); (6, 0, 0x81073a288c32dffffc%N); (7, 0, 0x81073a288c32dffffc%N); (8, 0, 0x81073a288c32dffffc%N); (9, 0, 0x81073a288c32dffffc%N); (10, 0, 0x81073a288c32dffffc%N); (11, 0, 0x81073a288c32dffffc%N); (12, 0, 0x81073a288c32dffffc%N); (15, 0, 0x81071a088832dbfbec%N); (16, 0, 0x81071a088832dbfbec%N); (17, 0, 0x81071a088832dbfbec%N); (18, 0, 0x81071a088832dbfbec%N); (19, 0, 0x81071a088832dbfbec%N); (19, 1, 0x81071a088832dbfbec%N); (20, 0, 0x81071a088832dbfbec%N); (21, 0, 0x81071a088832dbfbec%N); (22, 0, 0x81071a088832dbfbec%N); (23, 0, 0x81071a088832dbfbec%N)]
     [(1%N, 1); (3%N, 2); (4%N, 69); (6%N, 4); (24%N, 7); (32%N, 12); (34%N, 14); (42%N, 19); (44%N, 20); (45%N, 21); (48%N, 24); (61%N, 30); (1000%N, 58); (1001%N, 57); (1003%N, 71)];
   mkst [(0, 0, 0x81073a288c3257cffc%N); (1, 0, 0x81073a288c3257cffc%N); (2, 0, 0x81073a288c3257cffc%N); (3, 0, 0x81073a288c3257cffc%N); (4, 0, 0x81073a288c3257cffc%N); (4, 1, 0x81073a288c32dffffc%N); (5, 0, 0x81073a288c3257cffc%N); (6, 0, 0x81073a288c3257cffc%N); (7, 0, 0x81073a288c3257cffc%N); (8, 0, 0x81073a288c3257cffc%N); (9, 0, 0x81073a288c3257cffc%N); (10, 0, 0x81073a288c3257cffc%N); (11, 0, 0x81073a288c3257cffc%N); (12, 0, 0x81073a288c3257cffc%N); (15, 0, 0x81071a08883253cbec%N); (16, 0, 0x81071a08883253cbec%N); (17, 0, 0x81071a08883253cbec%N); (18, 0, 0x81071a08883253cbec%N); (19, 0, 0x81071a08883253cbec%N); (20, 0, 0x81071a08883253cbec%N); (21, 0, 0x81071a08883253cbec%N); (22, 0, 0x81071a08883253cbec%N); (23, 0, 0x81071a08883253cbec%N); (24, 0, 0x612088030534bec%N); (25, 0, 0x612088030534bec%N); (25, 1, 0x612088030db7bec%N); (26, 0, 0x612088030534bec%N); (27, 0, 0x612088030534bec%N); (28, 0, 0x612088030534bec%N); (29, 0, 0x612088030534bec%N); (30, 0, 0x6120880305343a8%N); (31, 0, 0x6120880305343a8%N); (32, 0, 0x6120880305343a8%N); (33, 0, 0x612088030534128%N); (34, 0, 0x612088030534128%N); (35, 0, 0x612088030534128%N); (36, 0, 0x12088030534128%N); (37, 0, 0x12088030534128%N); (38, 0, 0x12088030534128%N); (39, 0, 0x12088030534128%N); (40, 0, 0x12088030534128%N); (41, 0, 0x10008030520128%N); (42, 0, 0x10008030520128%N); (43, 0, 0x10008030520128%N); (44, 0, 0x30520128%N); (45, 0, 0x30520128%N); (46, 0, 0x30520120%N); (47, 0, 0x30520120%N); (48, 0, 0x30420120%N); (49, 0, 0x30420120%N); (50, 0, 0x30020120%N); (51, 0, 0x30020120%N); (52, 0, 0x20020120%N); (53, 0, 0x20020120%N); (54, 0, 0x120%N); (55, 0, 0x120%N); (57, 0, 0x120%N); (58, 0, 0x120%N); (59, 0, 0x120%N); (60, 0, 0x120%N); (61, 0, 0x120%N); (62, 0, 0x120%N); (63, 0, 0x120%N); (64, 0, 0x120%N); (65, 0, 0x120%N); (66, 0, 0x120%N); (84, 0, 0x7c98848250c8040070%N); (85, 0, 0x7c98848250c8040070%N); (86, 0, 0x7c98848250c8040070%N); (87, 0, 0x7c98848250c8040070%N); (88, 0, 0x7c98848250c8040070%N); (89, 0, 0x7c98848250c8040070%N); (90, 0, 0x7c98848250c8040070%N); (91, 0, 0x7c98848250c8040070%N); (92, 0, 0x7c98848250c8040070%N); (93, 0, 0x7c98848250c8040070%N); (94, 0, 0x7c98848250c8040070%N); (95, 0, 0x7c98848250c8040070%N); (96, 0, 0x7c98848250c8040070%N); (97, 0, 0x7c98848250c8040070%N); (98, 0, 0x7c98848250c8040070%N); (99, 0, 0x7c98848250c8040070%N); (100, 0, 0x100000200000%N); (101, 0, 0x100000200000%N); (106, 0, 0x7c98848250c8040070%N); (107, 0, 0x7c98848250c8040070%N); (108, 0, 0x7c98848250c8040070%N); (109, 0, 0x7c98848250c8040070%N); (115, 0, 0x7c98848250c8040070%N); (116, 0, 0x7c98848250c8040070%N); (117, 0, 0x7c98848250c8040070%N); (118, 0, 0x7c98848250c8040070%N); (119, 0, 0x7c98848250c8040070%N); (124, 0, 0x7c98848250c8040070%N); (125, 0, 0x7c98848250c8040070%N); (126, 0, 0x7c98848250c8040070%N); (158, 0, 0x20%N); (159, 0, 0x20%N)]
     [(1%N, 1); (3%N, 2); (4%N, 3); (6%N, 4); (24%N, 7); (27%N, 9); (30%N, 10); (31%N, 11); (32%N, 12); (34%N, 14); (36%N, 15); (38%N, 16); (41%N, 18); (42%N, 19); (44%N, 20); (45%N, 21); (47%N, 23); (48%N, 24); (50%N, 25); (55%N, 27); (59%N, 28); (60%N, 29); (61%N, 30); (63%N, 32); (66%N, 34); (67%N, 35); (68%N, 36); (69%N, 37); (70%N, 38); (1000%N, 58); (1001%N, 57); (1003%N, 68); (1004%N, 42); (1005%N, 56); (1006%N, 39); (1007%N, 62); (1008%N, 59); (1009%N, 48); (1010%N, 40); (1011%N, 49); (1012%N, 53); (1013%N, 54); (1014%N, 55); (1015%N, 43); (1017%N, 41); (1018%N, 72); (1025%N, 77); (1026%N, 65); (1027%N, 64); (1030%N, 74); (1031%N, 73); (1034%N, 47); (1037%N, 76); (1047%N, 75)];
   mkst [(0, 0, 0x81073a288c32dffffc%N); (1, 0, 0x81073a288c32dffffc%N); (2, 0, 0x81073a288c32dffffc%N); (3, 0, 0x81073a288c32dffffc%N); (4, 0, 0x81073a288c32dffffc%N); (5, 0, 0x81073a288c32dffffc%N); (6, 0, 0x81073a288c32dffffc%N); (7, 0, 0x81073a288c32dffffc%N); (8, 0, 0x81073a288c32dffffc%N); (9, 0, 0x81073a288c32dffffc%N); (10, 0, 0x81073a288c32dffffc%N); (11, 0, 0x81073a288c32dffffc%N); (12, 0, 0x81073a288c32dffffc%N); (15, 0, 0x81071a088832dbfbec%N); (16, 0, 0x81071a088832dbfbec%N); (17, 0, 0x81071a088832dbfbec%N); (18, 0, 0x81071a088832dbfbec%N); (19, 0, 0x81071a088832dbfbec%N); (20, 0, 0x81071a088832dbfbec%N); (20, 1, 0x81071a088832dbfbec%N); (21, 0, 0x81071a088832dbfbec%N); (22, 0, 0x81071a088832dbfbec%N); (23, 0, 0x81071a088832dbfbec%N)]
     [(1%N, 1); (3%N, 2); (4%N, 69); (6%N, 4); (24%N, 7); (32%N, 12); (34%N, 14); (42%N, 19); (44%N, 20); (45%N, 21); (48%N, 24); (61%N, 30); (1000%N, 58); (1001%N, 57); (1003%N, 78)];
   mkst [(186, 1, 0x7ef8c5f757cd02205b%N)]
     [];
   mkst [(191, 1, 0x7ef8c5f757cd02205b%N)]
     [(44%N, 79)];
   mkst [(0, 0, 0x81073a288c32dffffc%N); (1, 0, 0x81073a288c32dffffc%N); (2, 0, 0x81073a288c32dffffc%N); (3, 0, 0x81073a288c32dffffc%N); (4, 0, 0x81073a288c32dffffc%N); (5, 0, 0x81073a288c32dffffc%N); (6, 0, 0x81073a288c32dffffc%N); (7, 0, 0x81073a288c32dffffc%N); (8, 0, 0x81073a288c32dffffc%N); (9, 0, 0x81073a288c32dffffc%N); (10, 0, 0x81073a288c32dffffc%N); (11, 0, 0x81073a288c32dffffc%N); (12, 0, 0x81073a288c32dffffc%N); (15, 0, 0x81071a088832dbfbec%N); (16, 0, 0x81071a088832dbfbec%N); (17, 0, 0x81071a088832dbfbec%N); (18, 0, 0x81071a088832dbfbec%N); (19, 0, 0x81071a088832dbfbec%N); (20, 0, 0x81071a088832dbfbec%N); (21, 0, 0x81071a088832dbfbec%N); (21, 1, 0x81071a088832dbfbec%N); (22, 0, 0x81071a088832dbfbec%N); (23, 0, 0x81071a088832dbfbec%N)]
     [(1%N, 1); (3%N, 2); (4%N, 69); (6%N, 4); (24%N, 7); (32%N, 12); (34%N, 14); (42%N, 19); (44%N, 20); (45%N, 21); (48%N, 24); (61%N, 30); (1000%N, 58); (1001%N, 57); (1003%N, 80)];
   mkst [(82, 1, 0x7ed8c4d350cc042170%N)]
     [];
   mkst [(93, 1, 0x7ed8c4d350cc043170%N)]
     [];
   mkst [(85, 1, 0x7ed8c4d350cc043170%N)]
     [];
   mkst [(124, 1, 0x7ef8c5f755cd0c317a%N)]
     [];
   mkst [(3, 1, 0x81073a288c32dffffc%N)]
     [];
   mkst [(190, 1, 0x7ef8c5f757cd02205b%N)]
     [];
   mkst [(0, 0, 0x81073a288c32dffffc%N); (1, 0, 0x81073a288c32dffffc%N); (2, 0, 0x81073a288c32dffffc%N); (3, 0, 0x81073a288c32dffffc%N); (4, 0, 0x81073a288c32dffffc%N); (5, 0, 0x81073a288c32dffffc%N); (6, 0, 0x81073a288c32dffffc%N); (7, 0, 0x81073a288c32dffffc%N); (8, 0, 0x81073a288c32dffffc%N); (9, 0, 0x81073a288c32dffffc%N); (10, 0, 0x81073a288c32dffffc%N); (11, 0, 0x81073a288c32dffffc%N); (12, 0, 0x81073a288c32dffffc%N); (15, 0, 0x81071a088832dbfbec%N); (16, 0, 0x81071a088832dbfbec%N); (17, 0, 0x81071a088832dbfbec%N); (17, 1, 0x81071a088832dbfbec%N); (18, 0, 0x81071a088832dbfbec%N); (19, 0, 0x81071a088832dbfbec%N); (20, 0, 0x81071a088832dbfbec%N); (21, 0, 0x81071a088832dbfbec%N); (22, 0, 0x81071a088832dbfbec%N); (23, 0, 0x81071a088832dbfbec%N)]
     [(1%N, 1); (3%N, 2); (4%N, 69); (6%N, 4); (24%N, 7); (32%N, 12); (34%N, 14); (42%N, 19); (44%N, 20); (45%N, 21); (48%N, 24); (61%N, 30); (1000%N, 58); (1001%N, 57); (1003%N, 81)];
   mkst [(90, 1, 0x7ed8c4d350cc043170%N)]
     [];
   mkst [(115, 1, 0x7ed8c4d350cc043170%N); (116, 1, 0x7ed8c4d350cc043170%N); (117, 1, 0x7ed8c4d350cc043170%N); (118, 1, 0x7ed8c4d350cc043170%N); (119, 1, 0x7ed8c4d350cc043170%N)]
     [(21%N, 82); (44%N, 83)];
   mkst [(80, 1, 0x7ed8c4d350cc042170%N)]
     [];
   mkst [(89, 1, 0x7ed8c4d350cc043170%N)]
     [];
   mkst [(1, 1, 0x81073a288c32dffffc%N)]
     [];
   mkst [(2, 1, 0x81073a288c32dffffc%N)]
     [];
   mkst [(0, 0, 0x81073a288c32dffffc%N); (1, 0, 0x81073a288c32dffffc%N); (2, 0, 0x81073a288c32dffffc%N); (3, 0, 0x81073a288c32dffffc%N); (4, 0, 0x81073a288c32dffffc%N); (5, 0, 0x81073a288c32dffffc%N); (6, 0, 0x81073a288c32dffffc%N); (7, 0, 0x81073a288c32dffffc%N); (8, 0, 0x81073a288c32dffffc%N); (9, 0, 0x81073a288c32dffffc%N); (10, 0, 0x81073a288c32dffffc%N); (11, 0, 0x81073a288c32dffffc%N); (12, 0, 0x81073a288c32dffffc%N); (15, 0, 0x81071a088832dbfbec%N); (16, 0, 0x81071a088832dbfbec%N); (16, 1, 0x81071a088832dbfbec%N); (17, 0, 0x81071a088832dbfbec%N); (18, 0, 0x81071a088832dbfbec%N); (19, 0, 0x81071a088832dbfbec%N); (20, 0, 0x81071a088832dbfbec%N); (21, 0, 0x81071a088832dbfbec%N); (22, 0, 0x81071a088832dbfbec%N); (23, 0, 0x81071a088832dbfbec%N)]
     [(1%N, 1); (3%N, 2); (4%N, 69); (6%N, 4); (24%N, 7); (32%N, 12); (34%N, 14); (42%N, 19); (44%N, 20); (45%N, 21); (48%N, 24); (61%N, 30); (1000%N, 58); (1001%N, 57); (1003%N, 84)];
   mkst [(127, 1, 0x7ed8c4d350cc042170%N)]
     [];
   mkst [(87, 1, 0x7ed8c4d350cc043170%N)]
     [];
   mkst [(0, 1, 0x81073a288c32dffffc%N)]
     [];
   mkst [(88, 1, 0x7ed8c4d350cc043170%N)]
     [];
   mkst [(83, 1, 0x7ed8c4d350cc042170%N)]
     [];
   mkst [(125, 1, 0x7ef8c5f755cd0c317a%N)]
     [];
   mkst [(86, 1, 0x7ed8c4d350cc043170%N)]
     [];
   mkst [(91, 1, 0x7ed8c4d350cc043170%N)]
     [];
   mkst [(0, 0, 0x81073a288c32dffffc%N); (1, 0, 0x81073a288c32dffffc%N); (2, 0, 0x81073a288c32dffffc%N); (3, 0, 0x81073a288c32dffffc%N); (4, 0, 0x81073a288c32dffffc%N); (5, 0, 0x81073a288c32dffffc%N); (6, 0, 0x81073a288c32dffffc%N); (7, 0, 0x81073a288c32dffffc%N); (8, 0, 0x81073a288c32dffffc%N); (9, 0, 0x81073a288c32dffffc%N); (10, 0, 0x81073a288c32dffffc%N); (11, 0, 0x81073a288c32dffffc%N); (12, 0, 0x81073a288c32dffffc%N); (15, 0, 0x81071a088832dbfbec%N); (16, 0, 0x81071a088832dbfbec%N); (17, 0, 0x81071a088832dbfbec%N); (18, 0, 0x81071a088832dbfbec%N); (19, 0, 0x81071a088832dbfbec%N); (20, 0, 0x81071a088832dbfbec%N); (21, 0, 0x81071a088832dbfbec%N); (22, 0, 0x81071a088832dbfbec%N); (22, 1, 0x81071a088832dbfbec%N); (23, 0, 0x81071a088832dbfbec%N); (23, 1, 0x81071a088832dbfbec%N)]
     [(1%N, 1); (3%N, 2); (4%N, 85); (6%N, 4); (24%N, 7); (32%N, 12); (34%N, 14); (42%N, 19); (44%N, 20); (45%N, 21); (48%N, 24); (61%N, 30); (1000%N, 58); (1001%N, 57); (1003%N, 86)];
   mkst [(81, 1, 0x7ed8c4d350cc042170%N)]
     [];
   mkst [(100, 1, 0x100000200000%N)]
     [];
   mkst [(79, 1, 0x7ed8c4d350cc042170%N)]
     [];
   mkst [(96, 1, 0x7ed8c4d350cc043170%N)]
     [];
   mkst [(101, 1, 0x100000200000%N)]
     [];
   mkst [(92, 1, 0x7ed8c4d350cc043170%N)]
     [];
   mkst [(84, 1, 0x7ed8c4d350cc043170%N)]
     [];
   mkst [(126, 1, 0x7ef8c5f755cd0c317a%N)]
     [];
   mkst [(31, 1, 0x612088030db73a8%N); (32, 1, 0x612088030db73a8%N); (33, 1, 0x612088030db7128%N)]
     [(7%N, 87); (9%N, 88)];
   mkst [(45, 1, 0x30da3128%N); (46, 1, 0x30da3120%N)]
     [(3%N, 89)];
   mkst [(65, 1, 0x83120%N)]
     [];
   mkst [(26, 1, 0x612088030db7bec%N)]
     [];
   mkst [(57, 1, 0x883120%N)]
     [];
   mkst [(189, 1, 0x7ef8c5f757cd02205b%N)]
     [];
   mkst [(69, 1, 0x7ed8c4d350cc042170%N)]
     [];
   mkst [(67, 1, 0x7ef8c5f757cd02205b%N); (68, 1, 0x7ef8c5f757cd02205b%N); (70, 1, 0x7ed8c4d350cc002050%N); (71, 0, 0x7ed8c4d350cc002050%N); (72, 0, 0x7ed8c4d350cc002050%N); (73, 0, 0x7ed8c4d350cc002050%N); (74, 0, 0x7ed8c4d350cc002050%N); (75, 0, 0x2100%N); (76, 0, 0x2100%N); (77, 0, 0x2100%N); (78, 0, 0x2100%N); (79, 0, 0x7ed8c4d350cc002050%N); (80, 0, 0x7ed8c4d350cc002050%N); (81, 0, 0x7ed8c4d350cc002050%N); (82, 0, 0x7ed8c4d350cc002050%N); (83, 0, 0x7ed8c4d350cc002050%N); (84, 0, 0x7ed8c4d350cc002050%N); (85, 0, 0x7ed8c4d350cc002050%N); (86, 0, 0x7ed8c4d350cc002050%N); (87, 0, 0x7ed8c4d350cc002050%N); (88, 0, 0x7ed8c4d350cc002050%N); (89, 0, 0x7ed8c4d350cc002050%N); (90, 0, 0x7ed8c4d350cc002050%N); (91, 0, 0x7ed8c4d350cc002050%N); (92, 0, 0x7ed8c4d350cc002050%N); (93, 0, 0x7ed8c4d350cc002050%N); (94, 0, 0x7ed8c4d350cc002050%N); (95, 0, 0x7ed8c4d350cc002050%N); (96, 0, 0x7ed8c4d350cc002050%N); (97, 0, 0x7ed8c4d350cc002050%N); (98, 0, 0x7ed8c4d350cc002050%N); (99, 0, 0x7ed8c4d350cc002050%N); (100, 0, 0x100000200000%N); (101, 0, 0x100000200000%N); (115, 0, 0x7ed8c4d350cc002050%N); (116, 0, 0x7ed8c4d350cc002050%N); (117, 0, 0x7ed8c4d350cc002050%N); (118, 0, 0x7ed8c4d350cc002050%N); (119, 0, 0x7ed8c4d350cc002050%N); (124, 0, 0x7ed8c4d350cc002050%N); (125, 0, 0x7ed8c4d350cc002050%N); (126, 0, 0x7ed8c4d350cc002050%N); (127, 0, 0x7ed8c4d350cc002050%N); (128, 0, 0xa100%N); (129, 0, 0xa100%N); (130, 0, 0x4a110%N); (131, 0, 0x4a110%N); (132, 0, 0x4a110%N); (133, 0, 0x4a110%N); (134, 0, 0x4a110%N); (135, 0, 0x4a110%N); (136, 0, 0x4a110%N); (137, 0, 0x4a110%N); (138, 0, 0x4a110%N); (139, 0, 0x4a110%N); (140, 0, 0x4a110%N); (141, 0, 0x4a110%N); (142, 0, 0x4a110%N); (143, 0, 0x100000000010%N); (144, 0, 0x100000000010%N); (145, 0, 0x100000000010%N); (146, 0, 0x100000000010%N)]
     [(4%N, 90); (6%N, 91); (13%N, 92); (26%N, 8); (27%N, 9); (30%N, 10); (31%N, 11); (36%N, 15); (38%N, 16); (40%N, 17); (41%N, 18); (44%N, 93); (46%N, 22); (47%N, 23); (50%N, 25); (54%N, 26); (55%N, 27); (59%N, 28); (60%N, 29); (62%N, 31); (63%N, 32); (65%N, 33); (66%N, 34); (67%N, 35); (68%N, 36); (69%N, 37); (70%N, 38); (1021%N, 94); (1022%N, 98); (1023%N, 97); (1024%N, 63); (1025%N, 67); (1026%N, 65); (1027%N, 64); (1034%N, 47); (1037%N, 66); (1038%N, 52); (1039%N, 95); (1040%N, 96); (1041%N, 99)];
   mkst [(95, 1, 0x7ed8c4d350cc043170%N)]
     [];
   mkst [(42, 1, 0x10008030da3128%N); (43, 1, 0x10008030da3128%N); (44, 1, 0x30da3128%N)]
     [(39%N, 100); (52%N, 101)];
   mkst [(47, 1, 0x30da3120%N); (48, 1, 0x30ca3120%N)]
     [(20%N, 102)];
   mkst [(66, 1, 0x2100%N); (187, 1, 0x7ef8c5f757cd02205b%N)]
     [(8%N, 103); (13%N, 104)];
   mkst [(188, 1, 0x7ef8c5f757cd02205b%N)]
     [];
   mkst [(74, 1, 0x7ed8c4d350cc042170%N)]
     [];
   mkst [(49, 1, 0x30ca3120%N); (50, 1, 0x308a3120%N)]
     [(22%N, 105)];
   mkst [(51, 1, 0x308a3120%N); (52, 1, 0x208a3120%N)]
     [(28%N, 106)];
   mkst [(53, 1, 0x208a3120%N); (54, 1, 0x883120%N); (55, 1, 0x883120%N)]
     [(17%N, 107); (29%N, 108)];
   mkst [(27, 1, 0x612088030db7bec%N); (28, 1, 0x612088030db7bec%N); (29, 1, 0x612088030db7bec%N); (30, 1, 0x612088030db73a8%N)]
     [(2%N, 109); (6%N, 110); (11%N, 111)];
   mkst [(6, 1, 0x81073a288c32dffffc%N); (7, 1, 0x81073a288c32dffffc%N); (8, 1, 0x81073a288c32dffffc%N); (9, 1, 0x81073a288c32dffffc%N); (10, 1, 0x81073a288c32dffffc%N); (11, 1, 0x81073a288c32dffffc%N); (12, 1, 0x81073a288c32dffffc%N); (15, 1, 0x81071a088832dbfbec%N)]
     [(4%N, 112); (10%N, 113); (18%N, 114); (34%N, 115); (45%N, 116); (53%N, 117)];
   mkst [(5, 1, 0x81073a288c32dffffc%N)]
     [];
   mkst [(37, 1, 0x12088030db7128%N); (38, 1, 0x12088030db7128%N); (39, 1, 0x12088030db7128%N); (40, 1, 0x12088030db7128%N); (41, 1, 0x10008030da3128%N)]
     [(14%N, 118); (16%N, 119); (43%N, 120); (49%N, 121)];
   mkst [(192, 1, 0x7ef8c5f757cd02205b%N)]
     [];
   mkst [(0, 0, 0x81073a288c3257efdc%N); (1, 0, 0x81073a288c3257efdc%N); (2, 0, 0x81073a288c3257efdc%N); (3, 0, 0x81073a288c3257efdc%N); (4, 0, 0x81073a288c3257efdc%N); (5, 0, 0x81073a288c3257efdc%N); (6, 0, 0x81073a288c3257efdc%N); (7, 0, 0x81073a288c3257efdc%N); (8, 0, 0x81073a288c3257efdc%N); (9, 0, 0x81073a288c3257efdc%N); (10, 0, 0x81073a288c3257efdc%N); (11, 0, 0x81073a288c3257efdc%N); (12, 0, 0x81073a288c3257efdc%N); (15, 0, 0x81071a08883253ebcc%N); (16, 0, 0x81071a08883253ebcc%N); (17, 0, 0x81071a08883253ebcc%N); (18, 0, 0x81071a08883253ebcc%N); (19, 0, 0x81071a08883253ebcc%N); (20, 0, 0x81071a08883253ebcc%N); (21, 0, 0x81071a08883253ebcc%N); (22, 0, 0x81071a08883253ebcc%N); (23, 0, 0x81071a08883253ebcc%N); (24, 0, 0x612088030536bcc%N); (25, 0, 0x612088030536bcc%N); (26, 0, 0x612088030536bcc%N); (27, 0, 0x612088030536bcc%N); (28, 0, 0x612088030536bcc%N); (29, 0, 0x612088030536bcc%N); (30, 0, 0x612088030536388%N); (31, 0, 0x612088030536388%N); (32, 0, 0x612088030536388%N); (33, 0, 0x612088030536108%N); (34, 0, 0x612088030536108%N); (35, 0, 0x612088030536108%N); (36, 0, 0x12088030536108%N); (37, 0, 0x12088030536108%N); (38, 0, 0x12088030536108%N); (39, 0, 0x12088030536108%N); (40, 0, 0x12088030536108%N); (41, 0, 0x10008030522108%N); (42, 0, 0x10008030522108%N); (43, 0, 0x10008030522108%N); (44, 0, 0x30522108%N); (45, 0, 0x30522108%N); (46, 0, 0x30522100%N); (47, 0, 0x30522100%N); (48, 0, 0x30422100%N); (49, 0, 0x30422100%N); (50, 0, 0x30022100%N); (51, 0, 0x30022100%N); (52, 0, 0x20022100%N); (53, 0, 0x20022100%N); (54, 0, 0x2100%N); (55, 0, 0x2100%N); (57, 0, 0x2100%N); (58, 0, 0x2100%N); (59, 0, 0x2100%N); (60, 0, 0x2100%N); (61, 0, 0x2100%N); (62, 0, 0x2100%N); (63, 0, 0x2100%N); (64, 0, 0x2100%N); (65, 0, 0x2100%N); (66, 0, 0x2100%N); (67, 0, 0x7ef8c5f757cd02205b%N); (68, 0, 0x7ef8c5f757cd02205b%N); (69, 0, 0x7ed8c4d350cc002050%N); (70, 0, 0x7ed8c4d350cc002050%N); (71, 0, 0x7ed8c4d350cc002050%N); (72, 0, 0x7ed8c4d350cc002050%N); (73, 0, 0x7ed8c4d350cc002050%N); (74, 0, 0x7ed8c4d350cc002050%N); (79, 0, 0x7ed8c4d350cc002050%N); (80, 0, 0x7ed8c4d350cc002050%N); (81, 0, 0x7ed8c4d350cc002050%N); (82, 0, 0x7ed8c4d350cc002050%N); (83, 0, 0x7ed8c4d350cc002050%N); (84, 0, 0x7ed8c4d350cc002050%N); (85, 0, 0x7ed8c4d350cc002050%N); (86, 0, 0x7ed8c4d350cc002050%N); (87, 0, 0x7ed8c4d350cc002050%N); (88, 0, 0x7ed8c4d350cc002050%N); (89, 0, 0x7ed8c4d350cc002050%N); (90, 0, 0x7ed8c4d350cc002050%N); (91, 0, 0x7ed8c4d350cc002050%N); (92, 0, 0x7ed8c4d350cc002050%N); (93, 0, 0x7ed8c4d350cc002050%N); (94, 0, 0x7ed8c4d350cc002050%N); (95, 0, 0x7ed8c4d350cc002050%N); (96, 0, 0x7ed8c4d350cc002050%N); (97, 0, 0x7ed8c4d350cc002050%N); (98, 0, 0x7ed8c4d350cc002050%N); (99, 0, 0x7ed8c4d350cc002050%N); (100, 0, 0x100000200000%N); (101, 0, 0x100000200000%N); (115, 0, 0x7ed8c4d350cc002050%N); (116, 0, 0x7ed8c4d350cc002050%N); (117, 0, 0x7ed8c4d350cc002050%N); (118, 0, 0x7ed8c4d350cc002050%N); (119, 0, 0x7ed8c4d350cc002050%N); (124, 0, 0x7ed8c4d350cc002050%N); (125, 0, 0x7ed8c4d350cc002050%N); (126, 0, 0x7ed8c4d350cc002050%N); (127, 0, 0x7ed8c4d350cc002050%N); (186, 0, 0x7ef8c5f757cd02205b%N); (187, 0, 0x7ef8c5f757cd02205b%N); (188, 0, 0x7ef8c5f757cd02205b%N); (189, 0, 0x7ef8c5f757cd02205b%N); (190, 0, 0x7ef8c5f757cd02205b%N); (191, 0, 0x7ef8c5f757cd02205b%N); (193, 1, 0x7ef8c5f757cd02205b%N)]
     [(1%N, 1); (3%N, 2); (4%N, 3); (6%N, 4); (13%N, 5); (17%N, 6); (24%N, 7); (26%N, 8); (27%N, 9); (30%N, 10); (31%N, 11); (32%N, 12); (33%N, 13); (34%N, 14); (36%N, 15); (38%N, 16); (40%N, 17); (41%N, 18); (42%N, 19); (44%N, 20); (45%N, 21); (46%N, 22); (47%N, 23); (48%N, 24); (50%N, 25); (54%N, 26); (55%N, 27); (59%N, 28); (60%N, 29); (61%N, 30); (62%N, 31); (63%N, 32); (65%N, 33); (66%N, 34); (67%N, 35); (68%N, 36); (69%N, 37); (70%N, 38); (1000%N, 58); (1001%N, 57); (1003%N, 68); (1004%N, 42); (1005%N, 56); (1006%N, 39); (1007%N, 62); (1008%N, 59); (1009%N, 48); (1010%N, 40); (1011%N, 49); (1012%N, 53); (1013%N, 54); (1014%N, 55); (1015%N, 43); (1017%N, 41); (1018%N, 50); (1019%N, 44); (1020%N, 46); (1021%N, 45); (1024%N, 63); (1025%N, 67); (1026%N, 65); (1027%N, 64); (1034%N, 47); (1037%N, 66); (1038%N, 52); (1055%N, 51); (1056%N, 122)];
   mkst [(34, 1, 0x612088030db7128%N); (35, 1, 0x612088030db7128%N); (36, 1, 0x12088030db7128%N)]
     [(57%N, 123); (58%N, 124)];
   mkst [(71, 1, 0x7ed8c4d350cc042170%N)]
     [];
   mkst [(97, 1, 0x7ed8c4d350cc043170%N); (98, 1, 0x7ed8c4d350cc043170%N); (99, 1, 0x7ed8c4d350cc043170%N)]
     [(21%N, 125); (44%N, 126)];
   mkst [(94, 1, 0x7ed8c4d350cc043170%N)]
     [];
   mkst [(73, 1, 0x7ed8c4d350cc042170%N)]
     [];
   mkst [(72, 1, 0x7ed8c4d350cc042170%N)]
     [];
   mkst [(24, 1, 0x612088030db7bec%N); (58, 1, 0x883120%N); (59, 1, 0x883120%N); (60, 1, 0x883120%N); (61, 1, 0x883120%N); (62, 1, 0x883120%N); (63, 1, 0x883120%N); (64, 1, 0x883120%N)]
     [(15%N, 127); (25%N, 128); (35%N, 129); (51%N, 130); (56%N, 131); (64%N, 132); (71%N, 133)];
   mkst [(0, 0, 0x81073a288c3257cffc%N); (1, 0, 0x81073a288c3257cffc%N); (2, 0, 0x81073a288c3257cffc%N); (3, 0, 0x81073a288c3257cffc%N); (4, 0, 0x81073a288c3257cffc%N); (4, 1, 0x81073a288c32dffffc%N); (5, 0, 0x81073a288c3257cffc%N); (6, 0, 0x81073a288c3257cffc%N); (7, 0, 0x81073a288c3257cffc%N); (8, 0, 0x81073a288c3257cffc%N); (9, 0, 0x81073a288c3257cffc%N); (10, 0, 0x81073a288c3257cffc%N); (11, 0, 0x81073a288c3257cffc%N); (12, 0, 0x81073a288c3257cffc%N); (15, 0, 0x81071a08883253cbec%N); (16, 0, 0x81071a08883253cbec%N); (17, 0, 0x81071a08883253cbec%N); (18, 0, 0x81071a08883253cbec%N); (19, 0, 0x81071a08883253cbec%N); (20, 0, 0x81071a08883253cbec%N); (21, 0, 0x81071a08883253cbec%N); (22, 0, 0x81071a08883253cbec%N); (23, 0, 0x81071a08883253cbec%N); (24, 0, 0x612088030534bec%N); (25, 0, 0x612088030534bec%N); (26, 0, 0x612088030534bec%N); (27, 0, 0x612088030534bec%N); (28, 0, 0x612088030534bec%N); (29, 0, 0x612088030534bec%N); (30, 0, 0x6120880305343a8%N); (31, 0, 0x6120880305343a8%N); (32, 0, 0x6120880305343a8%N); (33, 0, 0x612088030534128%N); (34, 0, 0x612088030534128%N); (35, 0, 0x612088030534128%N); (36, 0, 0x12088030534128%N); (37, 0, 0x12088030534128%N); (38, 0, 0x12088030534128%N); (39, 0, 0x12088030534128%N); (40, 0, 0x12088030534128%N); (41, 0, 0x10008030520128%N); (42, 0, 0x10008030520128%N); (43, 0, 0x10008030520128%N); (44, 0, 0x30520128%N); (45, 0, 0x30520128%N); (46, 0, 0x30520120%N); (47, 0, 0x30520120%N); (48, 0, 0x30420120%N); (49, 0, 0x30420120%N); (50, 0, 0x30020120%N); (51, 0, 0x30020120%N); (52, 0, 0x20020120%N); (53, 0, 0x20020120%N); (54, 0, 0x120%N); (55, 0, 0x120%N); (57, 0, 0x120%N); (58, 0, 0x120%N); (59, 0, 0x120%N); (60, 0, 0x120%N); (61, 0, 0x120%N); (62, 0, 0x120%N); (63, 0, 0x120%N); (64, 0, 0x120%N); (65, 0, 0x120%N); (66, 0, 0x120%N)]
     [(1%N, 1); (3%N, 2); (4%N, 3); (6%N, 4); (24%N, 7); (32%N, 12); (34%N, 14); (42%N, 19); (44%N, 20); (45%N, 21); (48%N, 24); (61%N, 30); (1000%N, 58); (1001%N, 57); (1003%N, 68); (1004%N, 42); (1005%N, 56); (1006%N, 39); (1007%N, 62); (1008%N, 59); (1009%N, 48); (1010%N, 40); (1011%N, 49); (1012%N, 53); (1013%N, 54); (1014%N, 55); (1015%N, 43); (1017%N, 41); (1018%N, 72)];
   mkst [(18, 2, 0x81071a088832dbfbec%N)]
     [];
   mkst [(19, 2, 0x81071a088832dbfbec%N)]
     [];
   mkst [(4, 2, 0x81073a288c32dffffc%N); (66, 1, 0x120%N)]
     [(5%N, 134); (8%N, 103)];
   mkst [(106, 1, 0x7c98849250c8043070%N)]
     [];
   mkst [(84, 0, 0x7c98848250c8040070%N); (85, 0, 0x7c98848250c8040070%N); (86, 0, 0x7c98848250c8040070%N); (87, 0, 0x7c98848250c8040070%N); (88, 0, 0x7c98848250c8040070%N); (89, 0, 0x7c98848250c8040070%N); (90, 0, 0x7c98848250c8040070%N); (91, 0, 0x7c98848250c8040070%N); (92, 0, 0x7c98848250c8040070%N); (93, 0, 0x7c98848250c8040070%N); (94, 0, 0x7c98848250c8040070%N); (95, 0, 0x7c98848250c8040070%N); (96, 0, 0x7c98848250c8040070%N); (97, 0, 0x7c98848250c8040070%N); (98, 0, 0x7c98848250c8040070%N); (99, 0, 0x7c98848250c8040070%N); (100, 0, 0x100000200000%N); (101, 0, 0x100000200000%N); (107, 1, 0x7c98848250c8040070%N); (108, 0, 0x7c98848250c8040070%N); (109, 0, 0x7c98848250c8040070%N); (115, 0, 0x7c98848250c8040070%N); (116, 0, 0x7c98848250c8040070%N); (117, 0, 0x7c98848250c8040070%N); (118, 0, 0x7c98848250c8040070%N); (119, 0, 0x7c98848250c8040070%N); (124, 0, 0x7c98848250c8040070%N); (125, 0, 0x7c98848250c8040070%N); (126, 0, 0x7c98848250c8040070%N); (143, 0, 0x40030%N); (144, 0, 0x40030%N); (145, 0, 0x40030%N); (146, 0, 0x40030%N); (158, 1, 0x20%N); (159, 1, 0x20%N); (160, 0, 0x20%N); (161, 0, 0x20%N); (162, 0, 0x20%N); (163, 0, 0x40030%N); (164, 0, 0x40030%N); (165, 0, 0x40030%N); (166, 0, 0x40030%N); (167, 0, 0x40030%N); (168, 0, 0x40030%N); (169, 0, 0x40030%N); (170, 0, 0x40030%N); (171, 0, 0x40030%N); (172, 0, 0x40030%N); (173, 0, 0x40030%N)]
     [(4%N, 135); (6%N, 91); (18%N, 136); (27%N, 9); (30%N, 10); (31%N, 11); (36%N, 15); (38%N, 16); (41%N, 18); (47%N, 23); (50%N, 25); (55%N, 27); (59%N, 28); (60%N, 29); (63%N, 32); (66%N, 34); (67%N, 35); (68%N, 36); (69%N, 37); (70%N, 38); (1025%N, 77); (1026%N, 65); (1027%N, 64); (1031%N, 140); (1034%N, 47); (1037%N, 76); (1041%N, 139); (1048%N, 137); (1049%N, 138)];
   mkst [(25, 2, 0x612088030db7bec%N)]
     [(5%N, 141)];
   mkst [(109, 1, 0x7c98849250c8043070%N)]
     [];
   mkst [(108, 1, 0x7c98849250c8043070%N)]
     [];
   mkst [(20, 2, 0x81071a088832dbfbec%N)]
     [];
   mkst [(191, 2, 0x7ef8c5f757cd02205b%N)]
     [];
   mkst [(21, 2, 0x81071a088832dbfbec%N)]
     [];
   mkst [(17, 2, 0x81071a088832dbfbec%N)]
     [];
   mkst [(115, 2, 0x7ed8c4d350cc043170%N); (117, 2, 0x7ed8c4d350cc043170%N); (120, 0, 0x800100%N); (121, 0, 0x800100%N); (122, 0, 0x800100%N); (123, 0, 0x800100%N)]
     [(44%N, 142); (1035%N, 144); (1036%N, 143)];
   mkst [(116, 2, 0x7ed8c4d350cc043170%N); (118, 2, 0x7ed8c4d350cc043170%N); (119, 2, 0x7ed8c4d350cc043170%N)]
     [(21%N, 145)];
   mkst [(16, 2, 0x81071a088832dbfbec%N)]
     [];
   mkst [(0, 0, 0x81073a288c3257cffc%N); (1, 0, 0x81073a288c3257cffc%N); (2, 0, 0x81073a288c3257cffc%N); (3, 0, 0x81073a288c3257cffc%N); (4, 0, 0x81073a288c3257cffc%N); (4, 1, 0x81073a288c32dffffc%N); (5, 0, 0x81073a288c3257cffc%N); (6, 0, 0x81073a288c3257cffc%N); (7, 0, 0x81073a288c3257cffc%N); (8, 0, 0x81073a288c3257cffc%N); (9, 0, 0x81073a288c3257cffc%N); (10, 0, 0x81073a288c3257cffc%N); (11, 0, 0x81073a288c3257cffc%N); (12, 0, 0x81073a288c3257cffc%N); (15, 0, 0x81071a08883253cbec%N); (16, 0, 0x81071a08883253cbec%N); (17, 0, 0x81071a08883253cbec%N); (18, 0, 0x81071a08883253cbec%N); (19, 0, 0x81071a08883253cbec%N); (20, 0, 0x81071a08883253cbec%N); (21, 0, 0x81071a08883253cbec%N); (22, 0, 0x81071a08883253cbec%N); (23, 0, 0x81071a08883253cbec%N); (23, 2, 0x81071a088832dbfbec%N); (24, 0, 0x612088030534bec%N); (25, 0, 0x612088030534bec%N); (26, 0, 0x612088030534bec%N); (27, 0, 0x612088030534bec%N); (28, 0, 0x612088030534bec%N); (29, 0, 0x612088030534bec%N); (30, 0, 0x6120880305343a8%N); (31, 0, 0x6120880305343a8%N); (32, 0, 0x6120880305343a8%N); (33, 0, 0x612088030534128%N); (34, 0, 0x612088030534128%N); (35, 0, 0x612088030534128%N); (36, 0, 0x12088030534128%N); (37, 0, 0x12088030534128%N); (38, 0, 0x12088030534128%N); (39, 0, 0x12088030534128%N); (40, 0, 0x12088030534128%N); (41, 0, 0x10008030520128%N); (42, 0, 0x10008030520128%N); (43, 0, 0x10008030520128%N); (44, 0, 0x30520128%N); (45, 0, 0x30520128%N); (46, 0, 0x30520120%N); (47, 0, 0x30520120%N); (48, 0, 0x30420120%N); (49, 0, 0x30420120%N); (50, 0, 0x30020120%N); (51, 0, 0x30020120%N); (52, 0, 0x20020120%N); (53, 0, 0x20020120%N); (54, 0, 0x120%N); (55, 0, 0x120%N); (57, 0, 0x120%N); (58, 0, 0x120%N); (59, 0, 0x120%N); (60, 0, 0x120%N); (61, 0, 0x120%N); (62, 0, 0x120%N); (63, 0, 0x120%N); (64, 0, 0x120%N); (65, 0, 0x120%N); (66, 0, 0x120%N); (84, 0, 0x7c98848250c8040070%N); (85, 0, 0x7c98848250c8040070%N); (86, 0, 0x7c98848250c8040070%N); (87, 0, 0x7c98848250c8040070%N); (88, 0, 0x7c98848250c8040070%N); (89, 0, 0x7c98848250c8040070%N); (90, 0, 0x7c98848250c8040070%N); (91, 0, 0x7c98848250c8040070%N); (92, 0, 0x7c98848250c8040070%N); (93, 0, 0x7c98848250c8040070%N); (94, 0, 0x7c98848250c8040070%N); (95, 0, 0x7c98848250c8040070%N); (96, 0, 0x7c98848250c8040070%N); (97, 0, 0x7c98848250c8040070%N); (98, 0, 0x7c98848250c8040070%N); (99, 0, 0x7c98848250c8040070%N); (100, 0, 0x100000200000%N); (101, 0, 0x100000200000%N); (106, 0, 0x7c98848250c8040070%N); (107, 0, 0x7c98848250c8040070%N); (108, 0, 0x7c98848250c8040070%N); (109, 0, 0x7c98848250c8040070%N); (115, 0, 0x7c98848250c8040070%N); (116, 0, 0x7c98848250c8040070%N); (117, 0, 0x7c98848250c8040070%N); (118, 0, 0x7c98848250c8040070%N); (119, 0, 0x7c98848250c8040070%N); (124, 0, 0x7c98848250c8040070%N); (125, 0, 0x7c98848250c8040070%N); (126, 0, 0x7c98848250c8040070%N); (158, 0, 0x20%N); (159, 0, 0x20%N)]
     [(1%N, 1); (3%N, 2); (4%N, 3); (6%N, 4); (24%N, 7); (27%N, 9); (30%N, 10); (31%N, 11); (32%N, 12); (34%N, 14); (36%N, 15); (38%N, 16); (41%N, 18); (42%N, 19); (44%N, 20); (45%N, 21); (47%N, 23); (48%N, 24); (50%N, 25); (55%N, 27); (59%N, 28); (60%N, 29); (61%N, 30); (63%N, 32); (66%N, 34); (67%N, 35); (68%N, 36); (69%N, 37); (70%N, 38); (1000%N, 58); (1001%N, 57); (1003%N, 68); (1004%N, 42); (1005%N, 56); (1006%N, 39); (1007%N, 62); (1008%N, 59); (1009%N, 48); (1010%N, 40); (1011%N, 49); (1012%N, 53); (1013%N, 54); (1014%N, 55); (1015%N, 43); (1017%N, 41); (1018%N, 72); (1025%N, 77); (1026%N, 65); (1027%N, 64); (1030%N, 74); (1031%N, 73); (1034%N, 47); (1037%N, 76); (1047%N, 146)];
   mkst [(22, 2, 0x81071a088832dbfbec%N)]
     [];
   mkst [(0, 0, 0x632288430df7ffc%N); (1, 0, 0x632288430df7ffc%N); (2, 0, 0x632288430df7ffc%N); (3, 0, 0x632288430df7ffc%N); (4, 0, 0x632288430df7ffc%N); (5, 0, 0x632288430df7ffc%N); (6, 0, 0x632288430df7ffc%N); (7, 0, 0x632288430df7ffc%N); (8, 0, 0x632288430df7ffc%N); (9, 0, 0x632288430df7ffc%N); (10, 0, 0x632288430df7ffc%N); (11, 0, 0x632288430df7ffc%N); (12, 0, 0x632288430df7ffc%N); (15, 0, 0x612088030db7bec%N); (16, 0, 0x612088030db7bec%N); (17, 0, 0x612088030db7bec%N); (18, 0, 0x612088030db7bec%N); (19, 0, 0x612088030db7bec%N); (20, 0, 0x612088030db7bec%N); (21, 0, 0x612088030db7bec%N); (22, 0, 0x612088030db7bec%N); (23, 0, 0x612088030db7bec%N); (24, 0, 0x612088030db7bec%N); (25, 0, 0x612088030db7bec%N); (26, 0, 0x612088030db7bec%N); (27, 0, 0x612088030db7bec%N); (28, 0, 0x612088030db7bec%N); (29, 0, 0x612088030db7bec%N); (31, 2, 0x612088030db73a8%N)]
     [(1%N, 1); (3%N, 2); (4%N, 3); (6%N, 4); (24%N, 7); (32%N, 12); (34%N, 14); (42%N, 19); (44%N, 20); (45%N, 21); (48%N, 24); (61%N, 30); (1000%N, 58); (1001%N, 57); (1003%N, 148); (1004%N, 42); (1005%N, 147)];
   mkst [(0, 0, 0x632288430df7ffc%N); (1, 0, 0x632288430df7ffc%N); (2, 0, 0x632288430df7ffc%N); (3, 0, 0x632288430df7ffc%N); (4, 0, 0x632288430df7ffc%N); (5, 0, 0x632288430df7ffc%N); (6, 0, 0x632288430df7ffc%N); (7, 0, 0x632288430df7ffc%N); (8, 0, 0x632288430df7ffc%N); (9, 0, 0x632288430df7ffc%N); (10, 0, 0x632288430df7ffc%N); (11, 0, 0x632288430df7ffc%N); (12, 0, 0x632288430df7ffc%N); (15, 0, 0x612088030db7bec%N); (16, 0, 0x612088030db7bec%N); (17, 0, 0x612088030db7bec%N); (18, 0, 0x612088030db7bec%N); (19, 0, 0x612088030db7bec%N); (20, 0, 0x612088030db7bec%N); (21, 0, 0x612088030db7bec%N); (22, 0, 0x612088030db7bec%N); (23, 0, 0x612088030db7bec%N); (24, 0, 0x612088030db7bec%N); (25, 0, 0x612088030db7bec%N); (26, 0, 0x612088030db7bec%N); (27, 0, 0x612088030db7bec%N); (28, 0, 0x612088030db7bec%N); (29, 0, 0x612088030db7bec%N); (32, 2, 0x612088030db73a8%N)]
     [(1%N, 1); (3%N, 2); (4%N, 3); (6%N, 4); (24%N, 7); (32%N, 12); (34%N, 14); (42%N, 19); (44%N, 20); (45%N, 21); (48%N, 24); (61%N, 30); (1000%N, 58); (1001%N, 57); (1003%N, 148); (1004%N, 42); (1005%N, 149)];
   mkst [(0, 0, 0x632288430df7ffc%N); (1, 0, 0x632288430df7ffc%N); (2, 0, 0x632288430df7ffc%N); (3, 0, 0x632288430df7ffc%N); (4, 0, 0x632288430df7ffc%N); (5, 0, 0x632288430df7ffc%N); (6, 0, 0x632288430df7ffc%N); (7, 0, 0x632288430df7ffc%N); (8, 0, 0x632288430df7ffc%N); (9, 0, 0x632288430df7ffc%N); (10, 0, 0x632288430df7ffc%N); (11, 0, 0x632288430df7ffc%N); (12, 0, 0x632288430df7ffc%N); (15, 0, 0x612088030db7bec%N); (16, 0, 0x612088030db7bec%N); (17, 0, 0x612088030db7bec%N); (18, 0, 0x612088030db7bec%N); (19, 0, 0x612088030db7bec%N); (20, 0, 0x612088030db7bec%N); (21, 0, 0x612088030db7bec%N); (22, 0, 0x612088030db7bec%N); (23, 0, 0x612088030db7bec%N); (24, 0, 0x612088030db7bec%N); (25, 0, 0x612088030db7bec%N); (26, 0, 0x612088030db7bec%N); (27, 0, 0x612088030db7bec%N); (28, 0, 0x612088030db7bec%N); (29, 0, 0x612088030db7bec%N); (30, 0, 0x612088030db73a8%N); (31, 0, 0x612088030db73a8%N); (32, 0, 0x612088030db73a8%N); (33, 0, 0x612088030db7128%N); (34, 0, 0x612088030db7128%N); (35, 0, 0x612088030db7128%N); (36, 0, 0x12088030db7128%N); (37, 0, 0x12088030db7128%N); (38, 0, 0x12088030db7128%N); (39, 0, 0x12088030db7128%N); (40, 0, 0x12088030db7128%N); (41, 0, 0x10008030da3128%N); (42, 0, 0x10008030da3128%N); (43, 0, 0x10008030da3128%N); (45, 2, 0x30da3128%N)]
     [(1%N, 1); (3%N, 2); (4%N, 3); (6%N, 4); (24%N, 7); (32%N, 12); (34%N, 14); (42%N, 19); (44%N, 20); (45%N, 21); (48%N, 24); (61%N, 30); (1000%N, 58); (1001%N, 57); (1003%N, 148); (1004%N, 42); (1005%N, 56); (1006%N, 39); (1007%N, 62); (1008%N, 59); (1009%N, 150)];
   mkst [(128, 0, 0x20%N); (129, 0, 0x20%N); (130, 0, 0x40030%N); (131, 0, 0x40030%N); (131, 1, 0x4b130%N); (132, 0, 0x40030%N); (133, 0, 0x40030%N); (134, 0, 0x40030%N); (135, 0, 0x40030%N); (136, 0, 0x40030%N); (137, 0, 0x40030%N); (138, 0, 0x40030%N); (139, 0, 0x40030%N); (140, 0, 0x40030%N); (141, 0, 0x40030%N); (142, 0, 0x40030%N); (143, 0, 0x100000000010%N); (144, 0, 0x100000000010%N); (145, 0, 0x100000000010%N); (146, 0, 0x100000000010%N)]
     [(4%N, 90); (6%N, 91); (44%N, 93); (1039%N, 151); (1040%N, 96); (1041%N, 99)];
   mkst [(124, 0, 0x400080100080040170%N); (125, 0, 0x400080100080040170%N); (126, 0, 0x400080100080040170%N); (143, 0, 0x100000040130%N); (143, 1, 0x100000040130%N); (144, 0, 0x100000040130%N); (144, 1, 0x100000040130%N); (145, 0, 0x100000040130%N); (145, 1, 0x100000040130%N); (146, 0, 0x100000040130%N); (146, 1, 0x100000040130%N); (147, 0, 0x400080100080040170%N); (148, 0, 0x400080100080040170%N)]
     [(6%N, 91); (31%N, 11); (55%N, 27); (70%N, 38); (1037%N, 153); (1041%N, 152); (1042%N, 154)];
   mkst [(67, 2, 0x7ef8c5f757cd02205b%N)]
     [];
   mkst [(130, 1, 0x4b130%N)]
     [];
   mkst [(70, 2, 0x7ed8c4d350cc042170%N)]
     [];
   mkst [(77, 1, 0x2100%N); (78, 1, 0x2100%N)]
     [(15%N, 155)];
   mkst [(128, 1, 0xb120%N); (132, 1, 0x4b130%N); (133, 1, 0x4b130%N); (134, 1, 0x4b130%N); (135, 1, 0x4b130%N); (136, 1, 0x4b130%N); (137, 1, 0x4b130%N); (138, 1, 0x4b130%N); (139, 1, 0x4b130%N); (140, 1, 0x4b130%N); (141, 1, 0x4b130%N); (142, 1, 0x4b130%N)]
     [(4%N, 156); (18%N, 157)];
   mkst [(75, 1, 0x2100%N)]
     [];
   mkst [(68, 2, 0x7ef8c5f757cd02205b%N); (76, 1, 0x2100%N)]
     [(8%N, 158); (13%N, 159)];
   mkst [(129, 1, 0xb120%N); (130, 0, 0x4b130%N); (131, 0, 0x4b130%N); (132, 0, 0x4b130%N); (133, 0, 0x4b130%N); (134, 0, 0x4b130%N); (135, 0, 0x4b130%N); (136, 0, 0x4b130%N); (137, 0, 0x4b130%N); (138, 0, 0x4b130%N); (139, 0, 0x4b130%N); (140, 0, 0x4b130%N); (141, 0, 0x4b130%N); (142, 0, 0x4b130%N)]
     [(4%N, 90); (44%N, 93); (1040%N, 160)];
   mkst [(0, 0, 0x632288430df7ffc%N); (1, 0, 0x632288430df7ffc%N); (2, 0, 0x632288430df7ffc%N); (3, 0, 0x632288430df7ffc%N); (4, 0, 0x632288430df7ffc%N); (5, 0, 0x632288430df7ffc%N); (6, 0, 0x632288430df7ffc%N); (7, 0, 0x632288430df7ffc%N); (8, 0, 0x632288430df7ffc%N); (9, 0, 0x632288430df7ffc%N); (10, 0, 0x632288430df7ffc%N); (11, 0, 0x632288430df7ffc%N); (12, 0, 0x632288430df7ffc%N); (15, 0, 0x612088030db7bec%N); (16, 0, 0x612088030db7bec%N); (17, 0, 0x612088030db7bec%N); (18, 0, 0x612088030db7bec%N); (19, 0, 0x612088030db7bec%N); (20, 0, 0x612088030db7bec%N); (21, 0, 0x612088030db7bec%N); (22, 0, 0x612088030db7bec%N); (23, 0, 0x612088030db7bec%N); (24, 0, 0x612088030db7bec%N); (25, 0, 0x612088030db7bec%N); (26, 0, 0x612088030db7bec%N); (27, 0, 0x612088030db7bec%N); (28, 0, 0x612088030db7bec%N); (29, 0, 0x612088030db7bec%N); (30, 0, 0x612088030db73a8%N); (31, 0, 0x612088030db73a8%N); (32, 0, 0x612088030db73a8%N); (33, 0, 0x612088030db7128%N); (34, 0, 0x612088030db7128%N); (35, 0, 0x612088030db7128%N); (36, 0, 0x12088030db7128%N); (37, 0, 0x12088030db7128%N); (38, 0, 0x12088030db7128%N); (39, 0, 0x12088030db7128%N); (40, 0, 0x12088030db7128%N); (42, 2, 0x10008030da3128%N)]
     [(1%N, 1); (3%N, 2); (4%N, 3); (6%N, 4); (24%N, 7); (32%N, 12); (34%N, 14); (42%N, 19); (44%N, 20); (45%N, 21); (48%N, 24); (61%N, 30); (1000%N, 58); (1001%N, 57); (1003%N, 148); (1004%N, 42); (1005%N, 56); (1006%N, 39); (1007%N, 62); (1008%N, 161)];
   mkst [(0, 0, 0x632288430df7ffc%N); (1, 0, 0x632288430df7ffc%N); (2, 0, 0x632288430df7ffc%N); (3, 0, 0x632288430df7ffc%N); (4, 0, 0x632288430df7ffc%N); (5, 0, 0x632288430df7ffc%N); (6, 0, 0x632288430df7ffc%N); (7, 0, 0x632288430df7ffc%N); (8, 0, 0x632288430df7ffc%N); (9, 0, 0x632288430df7ffc%N); (10, 0, 0x632288430df7ffc%N); (11, 0, 0x632288430df7ffc%N); (12, 0, 0x632288430df7ffc%N); (15, 0, 0x612088030db7bec%N); (16, 0, 0x612088030db7bec%N); (17, 0, 0x612088030db7bec%N); (18, 0, 0x612088030db7bec%N); (19, 0, 0x612088030db7bec%N); (20, 0, 0x612088030db7bec%N); (21, 0, 0x612088030db7bec%N); (22, 0, 0x612088030db7bec%N); (23, 0, 0x612088030db7bec%N); (24, 0, 0x612088030db7bec%N); (25, 0, 0x612088030db7bec%N); (26, 0, 0x612088030db7bec%N); (27, 0, 0x612088030db7bec%N); (28, 0, 0x612088030db7bec%N); (29, 0, 0x612088030db7bec%N); (30, 0, 0x612088030db73a8%N); (31, 0, 0x612088030db73a8%N); (32, 0, 0x612088030db73a8%N); (33, 0, 0x612088030db7128%N); (34, 0, 0x612088030db7128%N); (35, 0, 0x612088030db7128%N); (36, 0, 0x12088030db7128%N); (37, 0, 0x12088030db7128%N); (38, 0, 0x12088030db7128%N); (39, 0, 0x12088030db7128%N); (40, 0, 0x12088030db7128%N); (43, 2, 0x10008030da3128%N)]
     [(1%N, 1); (3%N, 2); (4%N, 3); (6%N, 4); (24%N, 7); (32%N, 12); (34%N, 14); (42%N, 19); (44%N, 20); (45%N, 21); (48%N, 24); (61%N, 30); (1000%N, 58); (1001%N, 57); (1003%N, 148); (1004%N, 42); (1005%N, 56); (1006%N, 39); (1007%N, 62); (1008%N, 162)];
   mkst [(0, 0, 0x632288430df7ffc%N); (1, 0, 0x632288430df7ffc%N); (2, 0, 0x632288430df7ffc%N); (3, 0, 0x632288430df7ffc%N); (4, 0, 0x632288430df7ffc%N); (5, 0, 0x632288430df7ffc%N); (6, 0, 0x632288430df7ffc%N); (7, 0, 0x632288430df7ffc%N); (8, 0, 0x632288430df7ffc%N); (9, 0, 0x632288430df7ffc%N); (10, 0, 0x632288430df7ffc%N); (11, 0, 0x632288430df7ffc%N); (12, 0, 0x632288430df7ffc%N); (15, 0, 0x612088030db7bec%N); (16, 0, 0x612088030db7bec%N); (17, 0, 0x612088030db7bec%N); (18, 0, 0x612088030db7bec%N); (19, 0, 0x612088030db7bec%N); (20, 0, 0x612088030db7bec%N); (21, 0, 0x612088030db7bec%N); (22, 0, 0x612088030db7bec%N); (23, 0, 0x612088030db7bec%N); (24, 0, 0x612088030db7bec%N); (25, 0, 0x612088030db7bec%N); (26, 0, 0x612088030db7bec%N); (27, 0, 0x612088030db7bec%N); (28, 0, 0x612088030db7bec%N); (29, 0, 0x612088030db7bec%N); (30, 0, 0x612088030db73a8%N); (31, 0, 0x612088030db73a8%N); (32, 0, 0x612088030db73a8%N); (33, 0, 0x612088030db7128%N); (34, 0, 0x612088030db7128%N); (35, 0, 0x612088030db7128%N); (36, 0, 0x12088030db7128%N); (37, 0, 0x12088030db7128%N); (38, 0, 0x12088030db7128%N); (39, 0, 0x12088030db7128%N); (40, 0, 0x12088030db7128%N); (41, 0, 0x10008030da3128%N); (42, 0, 0x10008030da3128%N); (43, 0, 0x10008030da3128%N); (44, 0, 0x30da3128%N); (45, 0, 0x30da3128%N); (47, 2, 0x30da3120%N)]
     [(1%N, 1); (3%N, 2); (4%N, 3); (6%N, 4); (24%N, 7); (32%N, 12); (34%N, 14); (42%N, 19); (44%N, 20); (45%N, 21); (48%N, 24); (61%N, 30); (1000%N, 58); (1001%N, 57); (1003%N, 148); (1004%N, 42); (1005%N, 56); (1006%N, 39); (1007%N, 62); (1008%N, 59); (1009%N, 48); (1010%N, 163)];
   mkst [(0, 0, 0x81073a288c325ffffc%N); (1, 0, 0x81073a288c325ffffc%N); (2, 0, 0x81073a288c325ffffc%N); (3, 0, 0x81073a288c325ffffc%N); (4, 0, 0x81073a288c325ffffc%N); (5, 0, 0x81073a288c325ffffc%N); (6, 0, 0x81073a288c325ffffc%N); (7, 0, 0x81073a288c325ffffc%N); (8, 0, 0x81073a288c325ffffc%N); (9, 0, 0x81073a288c325ffffc%N); (10, 0, 0x81073a288c325ffffc%N); (11, 0, 0x81073a288c325ffffc%N); (12, 0, 0x81073a288c325ffffc%N); (15, 0, 0x81071a0888325bfbec%N); (16, 0, 0x81071a0888325bfbec%N); (17, 0, 0x81071a0888325bfbec%N); (18, 0, 0x81071a0888325bfbec%N); (19, 0, 0x81071a0888325bfbec%N); (20, 0, 0x81071a0888325bfbec%N); (21, 0, 0x81071a0888325bfbec%N); (22, 0, 0x81071a0888325bfbec%N); (23, 0, 0x81071a0888325bfbec%N); (24, 0, 0x6120880305b7bec%N); (25, 0, 0x6120880305b7bec%N); (26, 0, 0x6120880305b7bec%N); (27, 0, 0x6120880305b7bec%N); (28, 0, 0x6120880305b7bec%N); (29, 0, 0x6120880305b7bec%N); (30, 0, 0x6120880305b73a8%N); (31, 0, 0x6120880305b73a8%N); (32, 0, 0x6120880305b73a8%N); (33, 0, 0x6120880305b7128%N); (34, 0, 0x6120880305b7128%N); (35, 0, 0x6120880305b7128%N); (36, 0, 0x120880305b7128%N); (37, 0, 0x120880305b7128%N); (38, 0, 0x120880305b7128%N); (39, 0, 0x120880305b7128%N); (40, 0, 0x120880305b7128%N); (41, 0, 0x100080305a3128%N); (42, 0, 0x100080305a3128%N); (43, 0, 0x100080305a3128%N); (44, 0, 0x305a3128%N); (45, 0, 0x305a3128%N); (46, 0, 0x305a3120%N); (47, 0, 0x305a3120%N); (48, 0, 0x304a3120%N); (49, 0, 0x304a3120%N); (50, 0, 0x300a3120%N); (51, 0, 0x300a3120%N); (52, 0, 0x200a3120%N); (53, 0, 0x200a3120%N); (54, 0, 0x83120%N); (55, 0, 0x83120%N); (57, 0, 0x83120%N); (58, 0, 0x83120%N); (59, 0, 0x83120%N); (60, 0, 0x83120%N); (61, 0, 0x83120%N); (62, 0, 0x83120%N); (63, 0, 0x83120%N); (64, 0, 0x83120%N); (66, 2, 0x83120%N)]
     [(1%N, 1); (3%N, 2); (4%N, 3); (6%N, 4); (24%N, 7); (32%N, 12); (34%N, 14); (42%N, 19); (44%N, 20); (45%N, 21); (48%N, 24); (61%N, 30); (1000%N, 58); (1001%N, 57); (1003%N, 68); (1004%N, 42); (1005%N, 56); (1006%N, 39); (1007%N, 62); (1008%N, 59); (1009%N, 48); (1010%N, 40); (1011%N, 49); (1012%N, 53); (1013%N, 54); (1014%N, 55); (1015%N, 43); (1017%N, 164)];
   mkst [(187, 2, 0x7ef8c5f757cd02205b%N)]
     [];
   mkst [(0, 0, 0x632288430df7ffc%N); (1, 0, 0x632288430df7ffc%N); (2, 0, 0x632288430df7ffc%N); (3, 0, 0x632288430df7ffc%N); (4, 0, 0x632288430df7ffc%N); (5, 0, 0x632288430df7ffc%N); (6, 0, 0x632288430df7ffc%N); (7, 0, 0x632288430df7ffc%N); (8, 0, 0x632288430df7ffc%N); (9, 0, 0x632288430df7ffc%N); (10, 0, 0x632288430df7ffc%N); (11, 0, 0x632288430df7ffc%N); (12, 0, 0x632288430df7ffc%N); (15, 0, 0x612088030db7bec%N); (16, 0, 0x612088030db7bec%N); (17, 0, 0x612088030db7bec%N); (18, 0, 0x612088030db7bec%N); (19, 0, 0x612088030db7bec%N); (20, 0, 0x612088030db7bec%N); (21, 0, 0x612088030db7bec%N); (22, 0, 0x612088030db7bec%N); (23, 0, 0x612088030db7bec%N); (24, 0, 0x612088030db7bec%N); (25, 0, 0x612088030db7bec%N); (26, 0, 0x612088030db7bec%N); (27, 0, 0x612088030db7bec%N); (28, 0, 0x612088030db7bec%N); (29, 0, 0x612088030db7bec%N); (30, 0, 0x612088030db73a8%N); (31, 0, 0x612088030db73a8%N); (32, 0, 0x612088030db73a8%N); (33, 0, 0x612088030db7128%N); (34, 0, 0x612088030db7128%N); (35, 0, 0x612088030db7128%N); (36, 0, 0x12088030db7128%N); (37, 0, 0x12088030db7128%N); (38, 0, 0x12088030db7128%N); (39, 0, 0x12088030db7128%N); (40, 0, 0x12088030db7128%N); (41, 0, 0x10008030da3128%N); (42, 0, 0x10008030da3128%N); (43, 0, 0x10008030da3128%N); (44, 0, 0x30da3128%N); (45, 0, 0x30da3128%N); (46, 0, 0x30da3120%N); (47, 0, 0x30da3120%N); (49, 2, 0x30ca3120%N)]
     [(1%N, 1); (3%N, 2); (4%N, 3); (6%N, 4); (24%N, 7); (32%N, 12); (34%N, 14); (42%N, 19); (44%N, 20); (45%N, 21); (48%N, 24); (61%N, 30); (1000%N, 58); (1001%N, 57); (1003%N, 148); (1004%N, 42); (1005%N, 56); (1006%N, 39); (1007%N, 62); (1008%N, 59); (1009%N, 48); (1010%N, 40); (1011%N, 165)];
   mkst [(0, 0, 0x632288430df7ffc%N); (1, 0, 0x632288430df7ffc%N); (2, 0, 0x632288430df7ffc%N); (3, 0, 0x632288430df7ffc%N); (4, 0, 0x632288430df7ffc%N); (5, 0, 0x632288430df7ffc%N); (6, 0, 0x632288430df7ffc%N); (7, 0, 0x632288430df7ffc%N); (8, 0, 0x632288430df7ffc%N); (9, 0, 0x632288430df7ffc%N); (10, 0, 0x632288430df7ffc%N); (11, 0, 0x632288430df7ffc%N); (12, 0, 0x632288430df7ffc%N); (15, 0, 0x612088030db7bec%N); (16, 0, 0x612088030db7bec%N); (17, 0, 0x612088030db7bec%N); (18, 0, 0x612088030db7bec%N); (19, 0, 0x612088030db7bec%N); (20, 0, 0x612088030db7bec%N); (21, 0, 0x612088030db7bec%N); (22, 0, 0x612088030db7bec%N); (23, 0, 0x612088030db7bec%N); (24, 0, 0x612088030db7bec%N); (25, 0, 0x612088030db7bec%N); (26, 0, 0x612088030db7bec%N); (27, 0, 0x612088030db7bec%N); (28, 0, 0x612088030db7bec%N); (29, 0, 0x612088030db7bec%N); (30, 0, 0x612088030db73a8%N); (31, 0, 0x612088030db73a8%N); (32, 0, 0x612088030db73a8%N); (33, 0, 0x612088030db7128%N); (34, 0, 0x612088030db7128%N); (35, 0, 0x612088030db7128%N); (36, 0, 0x12088030db7128%N); (37, 0, 0x12088030db7128%N); (38, 0, 0x12088030db7128%N); (39, 0, 0x12088030db7128%N); (40, 0, 0x12088030db7128%N); (41, 0, 0x10008030da3128%N); (42, 0, 0x10008030da3128%N); (43, 0, 0x10008030da3128%N); (44, 0, 0x30da3128%N); (45, 0, 0x30da3128%N); (46, 0, 0x30da3120%N); (47, 0, 0x30da3120%N); (48, 0, 0x30ca3120%N); (49, 0, 0x30ca3120%N); (51, 2, 0x308a3120%N)]
     [(1%N, 1); (3%N, 2); (4%N, 3); (6%N, 4); (24%N, 7); (32%N, 12); (34%N, 14); (42%N, 19); (44%N, 20); (45%N, 21); (48%N, 24); (61%N, 30); (1000%N, 58); (1001%N, 57); (1003%N, 148); (1004%N, 42); (1005%N, 56); (1006%N, 39); (1007%N, 62); (1008%N, 59); (1009%N, 48); (1010%N, 40); (1011%N, 49); (1012%N, 166)];
   mkst [(0, 0, 0x81073a288c3257dfdc%N); (1, 0, 0x81073a288c3257dfdc%N); (2, 0, 0x81073a288c3257dfdc%N); (3, 0, 0x81073a288c3257dfdc%N); (4, 0, 0x81073a288c3257dfdc%N); (5, 0, 0x81073a288c3257dfdc%N); (6, 0, 0x81073a288c3257dfdc%N); (7, 0, 0x81073a288c3257dfdc%N); (8, 0, 0x81073a288c3257dfdc%N); (9, 0, 0x81073a288c3257dfdc%N); (10, 0, 0x81073a288c3257dfdc%N); (11, 0, 0x81073a288c3257dfdc%N); (12, 0, 0x81073a288c3257dfdc%N); (15, 0, 0x81071a08883253dbcc%N); (16, 0, 0x81071a08883253dbcc%N); (17, 0, 0x81071a08883253dbcc%N); (18, 0, 0x81071a08883253dbcc%N); (19, 0, 0x81071a08883253dbcc%N); (20, 0, 0x81071a08883253dbcc%N); (21, 0, 0x81071a08883253dbcc%N); (22, 0, 0x81071a08883253dbcc%N); (23, 0, 0x81071a08883253dbcc%N); (24, 0, 0x612088030535bcc%N); (25, 0, 0x612088030535bcc%N); (26, 0, 0x612088030535bcc%N); (27, 0, 0x612088030535bcc%N); (28, 0, 0x612088030535bcc%N); (29, 0, 0x612088030535bcc%N); (30, 0, 0x612088030535388%N); (31, 0, 0x612088030535388%N); (32, 0, 0x612088030535388%N); (33, 0, 0x612088030535108%N); (34, 0, 0x612088030535108%N); (35, 0, 0x612088030535108%N); (36, 0, 0x12088030535108%N); (37, 0, 0x12088030535108%N); (38, 0, 0x12088030535108%N); (39, 0, 0x12088030535108%N); (40, 0, 0x12088030535108%N); (41, 0, 0x10008030521108%N); (42, 0, 0x10008030521108%N); (43, 0, 0x10008030521108%N); (44, 0, 0x30521108%N); (45, 0, 0x30521108%N); (46, 0, 0x30521100%N); (47, 0, 0x30521100%N); (48, 0, 0x30421100%N); (49, 0, 0x30421100%N); (50, 0, 0x30021100%N); (51, 0, 0x30021100%N); (52, 0, 0x20021100%N); (53, 0, 0x20021100%N); (54, 0, 0x1100%N); (55, 0, 0x1100%N); (55, 2, 0x883120%N); (57, 0, 0x1100%N); (58, 0, 0x1100%N); (59, 0, 0x1100%N); (60, 0, 0x1100%N); (61, 0, 0x1100%N); (62, 0, 0x1100%N); (63, 0, 0x1100%N); (64, 0, 0x1100%N); (65, 0, 0x1100%N); (66, 0, 0x1100%N)]
     [(1%N, 1); (3%N, 2); (4%N, 3); (6%N, 4); (24%N, 7); (32%N, 12); (34%N, 14); (42%N, 19); (44%N, 20); (45%N, 21); (48%N, 24); (61%N, 30); (1000%N, 58); (1001%N, 57); (1003%N, 68); (1004%N, 42); (1005%N, 56); (1006%N, 39); (1007%N, 62); (1008%N, 59); (1009%N, 48); (1010%N, 40); (1011%N, 49); (1012%N, 53); (1013%N, 54); (1014%N, 55); (1015%N, 43); (1017%N, 41); (1018%N, 167)];
   mkst [(0, 0, 0x632288430df7ffc%N); (1, 0, 0x632288430df7ffc%N); (2, 0, 0x632288430df7ffc%N); (3, 0, 0x632288430df7ffc%N); (4, 0, 0x632288430df7ffc%N); (5, 0, 0x632288430df7ffc%N); (6, 0, 0x632288430df7ffc%N); (7, 0, 0x632288430df7ffc%N); (8, 0, 0x632288430df7ffc%N); (9, 0, 0x632288430df7ffc%N); (10, 0, 0x632288430df7ffc%N); (11, 0, 0x632288430df7ffc%N); (12, 0, 0x632288430df7ffc%N); (15, 0, 0x612088030db7bec%N); (16, 0, 0x612088030db7bec%N); (17, 0, 0x612088030db7bec%N); (18, 0, 0x612088030db7bec%N); (19, 0, 0x612088030db7bec%N); (20, 0, 0x612088030db7bec%N); (21, 0, 0x612088030db7bec%N); (22, 0, 0x612088030db7bec%N); (23, 0, 0x612088030db7bec%N); (24, 0, 0x612088030db7bec%N); (25, 0, 0x612088030db7bec%N); (26, 0, 0x612088030db7bec%N); (27, 0, 0x612088030db7bec%N); (28, 0, 0x612088030db7bec%N); (29, 0, 0x612088030db7bec%N); (30, 0, 0x612088030db73a8%N); (31, 0, 0x612088030db73a8%N); (32, 0, 0x612088030db73a8%N); (33, 0, 0x612088030db7128%N); (34, 0, 0x612088030db7128%N); (35, 0, 0x612088030db7128%N); (36, 0, 0x12088030db7128%N); (37, 0, 0x12088030db7128%N); (38, 0, 0x12088030db7128%N); (39, 0, 0x12088030db7128%N); (40, 0, 0x12088030db7128%N); (41, 0, 0x10008030da3128%N); (42, 0, 0x10008030da3128%N); (43, 0, 0x10008030da3128%N); (44, 0, 0x30da3128%N); (45, 0, 0x30da3128%N); (46, 0, 0x30da3120%N); (47, 0, 0x30da3120%N); (48, 0, 0x30ca3120%N); (49, 0, 0x30ca3120%N); (50, 0, 0x308a3120%N); (51, 0, 0x308a3120%N); (53, 2, 0x208a3120%N)]
     [(1%N, 1); (3%N, 2); (4%N, 3); (6%N, 4); (24%N, 7); (32%N, 12); (34%N, 14); (42%N, 19); (44%N, 20); (45%N, 21); (48%N, 24); (61%N, 30); (1000%N, 58); (1001%N, 57); (1003%N, 148); (1004%N, 42); (1005%N, 56); (1006%N, 39); (1007%N, 62); (1008%N, 59); (1009%N, 48); (1010%N, 40); (1011%N, 49); (1012%N, 53); (1013%N, 168)];
   mkst [(0, 0, 0x632288430df7ffc%N); (1, 0, 0x632288430df7ffc%N); (2, 0, 0x632288430df7ffc%N); (3, 0, 0x632288430df7ffc%N); (4, 0, 0x632288430df7ffc%N); (5, 0, 0x632288430df7ffc%N); (6, 0, 0x632288430df7ffc%N); (7, 0, 0x632288430df7ffc%N); (8, 0, 0x632288430df7ffc%N); (9, 0, 0x632288430df7ffc%N); (10, 0, 0x632288430df7ffc%N); (11, 0, 0x632288430df7ffc%N); (12, 0, 0x632288430df7ffc%N); (15, 0, 0x612088030db7bec%N); (16, 0, 0x612088030db7bec%N); (17, 0, 0x612088030db7bec%N); (18, 0, 0x612088030db7bec%N); (19, 0, 0x612088030db7bec%N); (20, 0, 0x612088030db7bec%N); (21, 0, 0x612088030db7bec%N); (22, 0, 0x612088030db7bec%N); (23, 0, 0x612088030db7bec%N); (24, 0, 0x612088030db7bec%N); (25, 0, 0x612088030db7bec%N); (29, 2, 0x612088030db7bec%N)]
     [(1%N, 1); (3%N, 2); (4%N, 3); (6%N, 4); (24%N, 7); (32%N, 12); (34%N, 14); (42%N, 19); (44%N, 20); (45%N, 21); (48%N, 24); (61%N, 30); (1000%N, 58); (1001%N, 57); (1003%N, 148); (1004%N, 169)];
   mkst [(0, 0, 0x632288430df7ffc%N); (1, 0, 0x632288430df7ffc%N); (2, 0, 0x632288430df7ffc%N); (3, 0, 0x632288430df7ffc%N); (4, 0, 0x632288430df7ffc%N); (5, 0, 0x632288430df7ffc%N); (6, 0, 0x632288430df7ffc%N); (7, 0, 0x632288430df7ffc%N); (8, 0, 0x632288430df7ffc%N); (9, 0, 0x632288430df7ffc%N); (10, 0, 0x632288430df7ffc%N); (11, 0, 0x632288430df7ffc%N); (12, 0, 0x632288430df7ffc%N); (15, 0, 0x612088030db7bec%N); (16, 0, 0x612088030db7bec%N); (17, 0, 0x612088030db7bec%N); (18, 0, 0x612088030db7bec%N); (19, 0, 0x612088030db7bec%N); (20, 0, 0x612088030db7bec%N); (21, 0, 0x612088030db7bec%N); (22, 0, 0x612088030db7bec%N); (23, 0, 0x612088030db7bec%N); (24, 0, 0x612088030db7bec%N); (25, 0, 0x612088030db7bec%N); (27, 2, 0x612088030db7bec%N)]
     [(1%N, 1); (3%N, 2); (4%N, 3); (6%N, 4); (24%N, 7); (32%N, 12); (34%N, 14); (42%N, 19); (44%N, 20); (45%N, 21); (48%N, 24); (61%N, 30); (1000%N, 58); (1001%N, 57); (1003%N, 148); (1004%N, 170)];
   mkst [(0, 0, 0x632288430df7ffc%N); (1, 0, 0x632288430df7ffc%N); (2, 0, 0x632288430df7ffc%N); (3, 0, 0x632288430df7ffc%N); (4, 0, 0x632288430df7ffc%N); (5, 0, 0x632288430df7ffc%N); (6, 0, 0x632288430df7ffc%N); (7, 0, 0x632288430df7ffc%N); (8, 0, 0x632288430df7ffc%N); (9, 0, 0x632288430df7ffc%N); (10, 0, 0x632288430df7ffc%N); (11, 0, 0x632288430df7ffc%N); (12, 0, 0x632288430df7ffc%N); (15, 0, 0x612088030db7bec%N); (16, 0, 0x612088030db7bec%N); (17, 0, 0x612088030db7bec%N); (18, 0, 0x612088030db7bec%N); (19, 0, 0x612088030db7bec%N); (20, 0, 0x612088030db7bec%N); (21, 0, 0x612088030db7bec%N); (22, 0, 0x612088030db7bec%N); (23, 0, 0x612088030db7bec%N); (24, 0, 0x612088030db7bec%N); (25, 0, 0x612088030db7bec%N); (28, 2, 0x612088030db7bec%N)]
     [(1%N, 1); (3%N, 2); (4%N, 3); (6%N, 4); (24%N, 7); (32%N, 12); (34%N, 14); (42%N, 19); (44%N, 20); (45%N, 21); (48%N, 24); (61%N, 30); (1000%N, 58); (1001%N, 57); (1003%N, 148); (1004%N, 171)];
   mkst [(0, 0, 0x81073a288c3257cffc%N); (1, 0, 0x81073a288c3257cffc%N); (2, 0, 0x81073a288c3257cffc%N); (3, 0, 0x81073a288c3257cffc%N); (4, 0, 0x81073a288c3257cffc%N); (5, 0, 0x81073a288c3257cffc%N); (6, 0, 0x81073a288c3257cffc%N); (6, 2, 0x81073a288c32dffffc%N); (7, 0, 0x81073a288c3257cffc%N); (7, 2, 0x81073a288c32dffffc%N); (8, 0, 0x81073a288c3257cffc%N); (9, 0, 0x81073a288c3257cffc%N); (10, 0, 0x81073a288c3257cffc%N); (11, 0, 0x81073a288c3257cffc%N); (12, 0, 0x81073a288c3257cffc%N); (13, 0, 0x120%N); (14, 0, 0x120%N); (15, 0, 0x81071a08883253cbec%N); (16, 0, 0x81071a08883253cbec%N); (17, 0, 0x81071a08883253cbec%N); (18, 0, 0x81071a08883253cbec%N); (19, 0, 0x81071a08883253cbec%N); (20, 0, 0x81071a08883253cbec%N); (21, 0, 0x81071a08883253cbec%N); (22, 0, 0x81071a08883253cbec%N); (23, 0, 0x81071a08883253cbec%N); (24, 0, 0x612088030534bec%N); (25, 0, 0x612088030534bec%N); (26, 0, 0x612088030534bec%N); (27, 0, 0x612088030534bec%N); (28, 0, 0x612088030534bec%N); (29, 0, 0x612088030534bec%N); (30, 0, 0x6120880305343a8%N); (31, 0, 0x6120880305343a8%N); (32, 0, 0x6120880305343a8%N); (33, 0, 0x612088030534128%N); (34, 0, 0x612088030534128%N); (35, 0, 0x612088030534128%N); (36, 0, 0x12088030534128%N); (37, 0, 0x12088030534128%N); (38, 0, 0x12088030534128%N); (39, 0, 0x12088030534128%N); (40, 0, 0x12088030534128%N); (41, 0, 0x10008030520128%N); (42, 0, 0x10008030520128%N); (43, 0, 0x10008030520128%N); (44, 0, 0x30520128%N); (45, 0, 0x30520128%N); (46, 0, 0x30520120%N); (47, 0, 0x30520120%N); (48, 0, 0x30420120%N); (49, 0, 0x30420120%N); (50, 0, 0x30020120%N); (51, 0, 0x30020120%N); (52, 0, 0x20020120%N); (53, 0, 0x20020120%N); (54, 0, 0x120%N); (55, 0, 0x120%N); (57, 0, 0x120%N); (58, 0, 0x120%N); (59, 0, 0x120%N); (60, 0, 0x120%N); (61, 0, 0x120%N); (62, 0, 0x120%N); (63, 0, 0x120%N); (64, 0, 0x120%N)]
     [(1%N, 1); (3%N, 2); (4%N, 3); (5%N, 172); (6%N, 4); (24%N, 7); (32%N, 12); (34%N, 14); (42%N, 19); (44%N, 20); (45%N, 21); (48%N, 24); (61%N, 30); (1000%N, 58); (1001%N, 57); (1002%N, 173); (1003%N, 68); (1004%N, 42); (1005%N, 56); (1006%N, 39); (1007%N, 62); (1008%N, 59); (1009%N, 48); (1010%N, 40); (1011%N, 49); (1012%N, 53); (1013%N, 54); (1014%N, 55); (1015%N, 43); (1017%N, 174)];
   mkst [(11, 2, 0x81073a288c32dffffc%N)]
     [(44%N, 175)];
   mkst [(0, 0, 0x81073a288c325fcfdc%N); (1, 0, 0x81073a288c325fcfdc%N); (2, 0, 0x81073a288c325fcfdc%N); (3, 0, 0x81073a288c325fcfdc%N); (4, 0, 0x81073a288c325fcfdc%N); (5, 0, 0x81073a288c325fcfdc%N); (6, 0, 0x81073a288c325fcfdc%N); (7, 0, 0x81073a288c325fcfdc%N); (8, 0, 0x81073a288c325fcfdc%N); (8, 2, 0x81073a288c32dffffc%N); (9, 0, 0x81073a288c325fcfdc%N); (10, 0, 0x81073a288c325fcfdc%N); (11, 0, 0x81073a288c325fcfdc%N); (12, 0, 0x81073a288c325fcfdc%N); (15, 0, 0x81071a0888325bcbcc%N); (16, 0, 0x81071a0888325bcbcc%N); (17, 0, 0x81071a0888325bcbcc%N); (18, 0, 0x81071a0888325bcbcc%N); (19, 0, 0x81071a0888325bcbcc%N); (20, 0, 0x81071a0888325bcbcc%N); (21, 0, 0x81071a0888325bcbcc%N); (22, 0, 0x81071a0888325bcbcc%N); (23, 0, 0x81071a0888325bcbcc%N); (24, 0, 0x6120880305b4bcc%N); (25, 0, 0x6120880305b4bcc%N); (26, 0, 0x6120880305b4bcc%N); (27, 0, 0x6120880305b4bcc%N); (28, 0, 0x6120880305b4bcc%N); (29, 0, 0x6120880305b4bcc%N); (30, 0, 0x6120880305b4388%N); (31, 0, 0x6120880305b4388%N); (32, 0, 0x6120880305b4388%N); (33, 0, 0x6120880305b4108%N); (34, 0, 0x6120880305b4108%N); (35, 0, 0x6120880305b4108%N); (36, 0, 0x120880305b4108%N); (37, 0, 0x120880305b4108%N); (38, 0, 0x120880305b4108%N); (39, 0, 0x120880305b4108%N); (40, 0, 0x120880305b4108%N); (41, 0, 0x100080305a0108%N); (42, 0, 0x100080305a0108%N); (43, 0, 0x100080305a0108%N); (44, 0, 0x305a0108%N); (45, 0, 0x305a0108%N); (46, 0, 0x305a0100%N); (47, 0, 0x305a0100%N); (48, 0, 0x304a0100%N); (49, 0, 0x304a0100%N); (50, 0, 0x300a0100%N); (51, 0, 0x300a0100%N); (52, 0, 0x200a0100%N); (53, 0, 0x200a0100%N); (54, 0, 0x80100%N); (55, 0, 0x80100%N); (57, 0, 0x80100%N); (58, 0, 0x80100%N); (59, 0, 0x80100%N); (60, 0, 0x80100%N); (61, 0, 0x80100%N); (62, 0, 0x80100%N); (63, 0, 0x80100%N); (64, 0, 0x80100%N); (65, 0, 0x80100%N); (66, 0, 0x80100%N)]
     [(1%N, 1); (3%N, 2); (4%N, 3); (6%N, 4); (24%N, 7); (32%N, 12); (34%N, 14); (42%N, 19); (44%N, 20); (45%N, 21); (48%N, 24); (61%N, 30); (1000%N, 58); (1001%N, 57); (1003%N, 68); (1004%N, 42); (1005%N, 56); (1006%N, 39); (1007%N, 62); (1008%N, 59); (1009%N, 48); (1010%N, 40); (1011%N, 49); (1012%N, 53); (1013%N, 54); (1014%N, 55); (1015%N, 43); (1017%N, 41); (1018%N, 176)];
   mkst [(10, 2, 0x81073a288c32dffffc%N)]
     [];
   mkst [(9, 2, 0x81073a288c32dffffc%N)]
     [];
   mkst [(12, 2, 0x81073a288c32dffffc%N)]
     [(44%N, 177)];
   mkst [(0, 0, 0x632288430df7ffc%N); (1, 0, 0x632288430df7ffc%N); (2, 0, 0x632288430df7ffc%N); (3, 0, 0x632288430df7ffc%N); (4, 0, 0x632288430df7ffc%N); (5, 0, 0x632288430df7ffc%N); (6, 0, 0x632288430df7ffc%N); (7, 0, 0x632288430df7ffc%N); (8, 0, 0x632288430df7ffc%N); (9, 0, 0x632288430df7ffc%N); (10, 0, 0x632288430df7ffc%N); (11, 0, 0x632288430df7ffc%N); (12, 0, 0x632288430df7ffc%N); (15, 0, 0x612088030db7bec%N); (16, 0, 0x612088030db7bec%N); (17, 0, 0x612088030db7bec%N); (18, 0, 0x612088030db7bec%N); (19, 0, 0x612088030db7bec%N); (20, 0, 0x612088030db7bec%N); (21, 0, 0x612088030db7bec%N); (22, 0, 0x612088030db7bec%N); (23, 0, 0x612088030db7bec%N); (24, 0, 0x612088030db7bec%N); (25, 0, 0x612088030db7bec%N); (26, 0, 0x612088030db7bec%N); (27, 0, 0x612088030db7bec%N); (28, 0, 0x612088030db7bec%N); (29, 0, 0x612088030db7bec%N); (30, 0, 0x612088030db73a8%N); (31, 0, 0x612088030db73a8%N); (32, 0, 0x612088030db73a8%N); (33, 0, 0x612088030db7128%N); (34, 0, 0x612088030db7128%N); (35, 0, 0x612088030db7128%N); (37, 2, 0x12088030db7128%N)]
     [(1%N, 1); (3%N, 2); (4%N, 3); (6%N, 4); (24%N, 7); (32%N, 12); (34%N, 14); (42%N, 19); (44%N, 20); (45%N, 21); (48%N, 24); (61%N, 30); (1000%N, 58); (1001%N, 57); (1003%N, 148); (1004%N, 42); (1005%N, 56); (1006%N, 39); (1007%N, 178)];
   mkst [(0, 0, 0x632288430df7ffc%N); (1, 0, 0x632288430df7ffc%N); (2, 0, 0x632288430df7ffc%N); (3, 0, 0x632288430df7ffc%N); (4, 0, 0x632288430df7ffc%N); (5, 0, 0x632288430df7ffc%N); (6, 0, 0x632288430df7ffc%N); (7, 0, 0x632288430df7ffc%N); (8, 0, 0x632288430df7ffc%N); (9, 0, 0x632288430df7ffc%N); (10, 0, 0x632288430df7ffc%N); (11, 0, 0x632288430df7ffc%N); (12, 0, 0x632288430df7ffc%N); (15, 0, 0x612088030db7bec%N); (16, 0, 0x612088030db7bec%N); (17, 0, 0x612088030db7bec%N); (18, 0, 0x612088030db7bec%N); (19, 0, 0x612088030db7bec%N); (20, 0, 0x612088030db7bec%N); (21, 0, 0x612088030db7bec%N); (22, 0, 0x612088030db7bec%N); (23, 0, 0x612088030db7bec%N); (24, 0, 0x612088030db7bec%N); (25, 0, 0x612088030db7bec%N); (26, 0, 0x612088030db7bec%N); (27, 0, 0x612088030db7bec%N); (28, 0, 0x612088030db7bec%N); (29, 0, 0x612088030db7bec%N); (30, 0, 0x612088030db73a8%N); (31, 0, 0x612088030db73a8%N); (32, 0, 0x612088030db73a8%N); (33, 0, 0x612088030db7128%N); (34, 0, 0x612088030db7128%N); (35, 0, 0x612088030db7128%N); (38, 2, 0x12088030db7128%N)]
     [(1%N, 1); (3%N, 2); (4%N, 3); (6%N, 4); (24%N, 7); (32%N, 12); (34%N, 14); (42%N, 19); (44%N, 20); (45%N, 21); (48%N, 24); (61%N, 30); (1000%N, 58); (1001%N, 57); (1003%N, 148); (1004%N, 42); (1005%N, 56); (1006%N, 39); (1007%N, 179)];
   mkst [(0, 0, 0x632288430df7ffc%N); (1, 0, 0x632288430df7ffc%N); (2, 0, 0x632288430df7ffc%N); (3, 0, 0x632288430df7ffc%N); (4, 0, 0x632288430df7ffc%N); (5, 0, 0x632288430df7ffc%N); (6, 0, 0x632288430df7ffc%N); (7, 0, 0x632288430df7ffc%N); (8, 0, 0x632288430df7ffc%N); (9, 0, 0x632288430df7ffc%N); (10, 0, 0x632288430df7ffc%N); (11, 0, 0x632288430df7ffc%N); (12, 0, 0x632288430df7ffc%N); (15, 0, 0x612088030db7bec%N); (16, 0, 0x612088030db7bec%N); (17, 0, 0x612088030db7bec%N); (18, 0, 0x612088030db7bec%N); (19, 0, 0x612088030db7bec%N); (20, 0, 0x612088030db7bec%N); (21, 0, 0x612088030db7bec%N); (22, 0, 0x612088030db7bec%N); (23, 0, 0x612088030db7bec%N); (24, 0, 0x612088030db7bec%N); (25, 0, 0x612088030db7bec%N); (26, 0, 0x612088030db7bec%N); (27, 0, 0x612088030db7bec%N); (28, 0, 0x612088030db7bec%N); (29, 0, 0x612088030db7bec%N); (30, 0, 0x612088030db73a8%N); (31, 0, 0x612088030db73a8%N); (32, 0, 0x612088030db73a8%N); (33, 0, 0x612088030db7128%N); (34, 0, 0x612088030db7128%N); (35, 0, 0x612088030db7128%N); (40, 2, 0x12088030db7128%N)]
     [(1%N, 1); (3%N, 2); (4%N, 3); (6%N, 4); (24%N, 7); (32%N, 12); (34%N, 14); (42%N, 19); (44%N, 20); (45%N, 21); (48%N, 24); (61%N, 30); (1000%N, 58); (1001%N, 57); (1003%N, 148); (1004%N, 42); (1005%N, 56); (1006%N, 39); (1007%N, 180)];
   mkst [(0, 0, 0x632288430df7ffc%N); (1, 0, 0x632288430df7ffc%N); (2, 0, 0x632288430df7ffc%N); (3, 0, 0x632288430df7ffc%N); (4, 0, 0x632288430df7ffc%N); (5, 0, 0x632288430df7ffc%N); (6, 0, 0x632288430df7ffc%N); (7, 0, 0x632288430df7ffc%N); (8, 0, 0x632288430df7ffc%N); (9, 0, 0x632288430df7ffc%N); (10, 0, 0x632288430df7ffc%N); (11, 0, 0x632288430df7ffc%N); (12, 0, 0x632288430df7ffc%N); (15, 0, 0x612088030db7bec%N); (16, 0, 0x612088030db7bec%N); (17, 0, 0x612088030db7bec%N); (18, 0, 0x612088030db7bec%N); (19, 0, 0x612088030db7bec%N); (20, 0, 0x612088030db7bec%N); (21, 0, 0x612088030db7bec%N); (22, 0, 0x612088030db7bec%N); (23, 0, 0x612088030db7bec%N); (24, 0, 0x612088030db7bec%N); (25, 0, 0x612088030db7bec%N); (26, 0, 0x612088030db7bec%N); (27, 0, 0x612088030db7bec%N); (28, 0, 0x612088030db7bec%N); (29, 0, 0x612088030db7bec%N); (30, 0, 0x612088030db73a8%N); (31, 0, 0x612088030db73a8%N); (32, 0, 0x612088030db73a8%N); (33, 0, 0x612088030db7128%N); (34, 0, 0x612088030db7128%N); (35, 0, 0x612088030db7128%N); (39, 2, 0x12088030db7128%N)]
     [(1%N, 1); (3%N, 2); (4%N, 3); (6%N, 4); (24%N, 7); (32%N, 12); (34%N, 14); (42%N, 19); (44%N, 20); (45%N, 21); (48%N, 24); (61%N, 30); (1000%N, 58); (1001%N, 57); (1003%N, 148); (1004%N, 42); (1005%N, 56); (1006%N, 39); (1007%N, 181)];
   mkst [(193, 2, 0x7ef8c5f757cd02205b%N)]
     [];
   mkst [(0, 0, 0x632288430df7ffc%N); (1, 0, 0x632288430df7ffc%N); (2, 0, 0x632288430df7ffc%N); (3, 0, 0x632288430df7ffc%N); (4, 0, 0x632288430df7ffc%N); (5, 0, 0x632288430df7ffc%N); (6, 0, 0x632288430df7ffc%N); (7, 0, 0x632288430df7ffc%N); (8, 0, 0x632288430df7ffc%N); (9, 0, 0x632288430df7ffc%N); (10, 0, 0x632288430df7ffc%N); (11, 0, 0x632288430df7ffc%N); (12, 0, 0x632288430df7ffc%N); (15, 0, 0x612088030db7bec%N); (16, 0, 0x612088030db7bec%N); (17, 0, 0x612088030db7bec%N); (18, 0, 0x612088030db7bec%N); (19, 0, 0x612088030db7bec%N); (20, 0, 0x612088030db7bec%N); (21, 0, 0x612088030db7bec%N); (22, 0, 0x612088030db7bec%N); (23, 0, 0x612088030db7bec%N); (24, 0, 0x612088030db7bec%N); (25, 0, 0x612088030db7bec%N); (26, 0, 0x612088030db7bec%N); (27, 0, 0x612088030db7bec%N); (28, 0, 0x612088030db7bec%N); (29, 0, 0x612088030db7bec%N); (30, 0, 0x612088030db73a8%N); (31, 0, 0x612088030db73a8%N); (32, 0, 0x612088030db73a8%N); (34, 2, 0x612088030db7128%N)]
     [(1%N, 1); (3%N, 2); (4%N, 3); (6%N, 4); (24%N, 7); (32%N, 12); (34%N, 14); (42%N, 19); (44%N, 20); (45%N, 21); (48%N, 24); (61%N, 30); (1000%N, 58); (1001%N, 57); (1003%N, 148); (1004%N, 42); (1005%N, 56); (1006%N, 182)];
   mkst [(0, 0, 0x632288430df7ffc%N); (1, 0, 0x632288430df7ffc%N); (2, 0, 0x632288430df7ffc%N); (3, 0, 0x632288430df7ffc%N); (4, 0, 0x632288430df7ffc%N); (5, 0, 0x632288430df7ffc%N); (6, 0, 0x632288430df7ffc%N); (7, 0, 0x632288430df7ffc%N); (8, 0, 0x632288430df7ffc%N); (9, 0, 0x632288430df7ffc%N); (10, 0, 0x632288430df7ffc%N); (11, 0, 0x632288430df7ffc%N); (12, 0, 0x632288430df7ffc%N); (15, 0, 0x612088030db7bec%N); (16, 0, 0x612088030db7bec%N); (17, 0, 0x612088030db7bec%N); (18, 0, 0x612088030db7bec%N); (19, 0, 0x612088030db7bec%N); (20, 0, 0x612088030db7bec%N); (21, 0, 0x612088030db7bec%N); (22, 0, 0x612088030db7bec%N); (23, 0, 0x612088030db7bec%N); (24, 0, 0x612088030db7bec%N); (25, 0, 0x612088030db7bec%N); (26, 0, 0x612088030db7bec%N); (27, 0, 0x612088030db7bec%N); (28, 0, 0x612088030db7bec%N); (29, 0, 0x612088030db7bec%N); (30, 0, 0x612088030db73a8%N); (31, 0, 0x612088030db73a8%N); (32, 0, 0x612088030db73a8%N); (35, 2, 0x612088030db7128%N)]
     [(1%N, 1); (3%N, 2); (4%N, 3); (6%N, 4); (24%N, 7); (32%N, 12); (34%N, 14); (42%N, 19); (44%N, 20); (45%N, 21); (48%N, 24); (61%N, 30); (1000%N, 58); (1001%N, 57); (1003%N, 148); (1004%N, 42); (1005%N, 56); (1006%N, 183)];
   mkst [(84, 0, 0x7c98849250c8003050%N); (85, 0, 0x7c98849250c8003050%N); (86, 0, 0x7c98849250c8003050%N); (87, 0, 0x7c98849250c8003050%N); (88, 0, 0x7c98849250c8003050%N); (89, 0, 0x7c98849250c8003050%N); (90, 0, 0x7c98849250c8003050%N); (91, 0, 0x7c98849250c8003050%N); (92, 0, 0x7c98849250c8003050%N); (93, 0, 0x7c98849250c8003050%N); (94, 0, 0x7c98849250c8003050%N); (95, 0, 0x7c98849250c8003050%N); (96, 0, 0x7c98849250c8003050%N); (97, 0, 0x7c98849250c8003050%N); (98, 0, 0x7c98849250c8003050%N); (98, 2, 0x7ed8c4d350cc043170%N); (99, 0, 0x7c98849250c8003050%N); (100, 0, 0x100000200000%N); (101, 0, 0x100000200000%N); (102, 0, 0x7c98848250c8800000%N); (103, 0, 0x7c98848250c8800000%N); (104, 0, 0x7c98848250c8800000%N); (105, 0, 0x7c98848250c8800000%N); (106, 0, 0x7c98849250c8003050%N); (107, 0, 0x7c98849250c8003050%N); (108, 0, 0x7c98849250c8003050%N); (109, 0, 0x7c98849250c8003050%N); (115, 0, 0x7c98849250c8003050%N); (116, 0, 0x7c98849250c8003050%N); (117, 0, 0x7c98849250c8003050%N); (118, 0, 0x7c98849250c8003050%N); (119, 0, 0x7c98849250c8003050%N); (124, 0, 0x7c98849250c8003050%N); (125, 0, 0x7c98849250c8003050%N); (126, 0, 0x7c98849250c8003050%N)]
     [(27%N, 9); (30%N, 10); (31%N, 11); (36%N, 15); (38%N, 16); (41%N, 18); (47%N, 23); (50%N, 25); (55%N, 27); (59%N, 28); (60%N, 29); (63%N, 32); (66%N, 34); (67%N, 35); (68%N, 36); (69%N, 37); (70%N, 38); (1025%N, 77); (1026%N, 65); (1027%N, 64); (1028%N, 186); (1029%N, 185); (1030%N, 184); (1031%N, 73); (1034%N, 47); (1037%N, 76)];
   mkst [(97, 2, 0x7ed8c4d350cc043170%N); (99, 2, 0x7ed8c4d350cc043170%N)]
     [(21%N, 187)];
   mkst [(0, 0, 0x81073a288c32dffffc%N); (1, 0, 0x81073a288c32dffffc%N); (2, 0, 0x81073a288c32dffffc%N); (3, 0, 0x81073a288c32dffffc%N); (4, 0, 0x81073a288c32dffffc%N); (5, 0, 0x81073a288c32dffffc%N); (6, 0, 0x81073a288c32dffffc%N); (7, 0, 0x81073a288c32dffffc%N); (8, 0, 0x81073a288c32dffffc%N); (9, 0, 0x81073a288c32dffffc%N); (10, 0, 0x81073a288c32dffffc%N); (11, 0, 0x81073a288c32dffffc%N); (12, 0, 0x81073a288c32dffffc%N); (15, 0, 0x81071a088832dbfbec%N); (16, 0, 0x81071a088832dbfbec%N); (17, 0, 0x81071a088832dbfbec%N); (18, 0, 0x81071a088832dbfbec%N); (19, 0, 0x81071a088832dbfbec%N); (20, 0, 0x81071a088832dbfbec%N); (21, 0, 0x81071a088832dbfbec%N); (22, 0, 0x81071a088832dbfbec%N); (23, 0, 0x81071a088832dbfbec%N); (24, 0, 0x612088030db7bec%N); (25, 0, 0x612088030db7bec%N); (26, 0, 0x612088030db7bec%N); (27, 0, 0x612088030db7bec%N); (28, 0, 0x612088030db7bec%N); (29, 0, 0x612088030db7bec%N); (30, 0, 0x612088030db73a8%N); (31, 0, 0x612088030db73a8%N); (32, 0, 0x612088030db73a8%N); (33, 0, 0x612088030db7128%N); (34, 0, 0x612088030db7128%N); (35, 0, 0x612088030db7128%N); (36, 0, 0x12088030db7128%N); (37, 0, 0x12088030db7128%N); (38, 0, 0x12088030db7128%N); (39, 0, 0x12088030db7128%N); (40, 0, 0x12088030db7128%N); (41, 0, 0x10008030da3128%N); (42, 0, 0x10008030da3128%N); (43, 0, 0x10008030da3128%N); (44, 0, 0x30da3128%N); (45, 0, 0x30da3128%N); (46, 0, 0x30da3120%N); (47, 0, 0x30da3120%N); (48, 0, 0x30ca3120%N); (49, 0, 0x30ca3120%N); (50, 0, 0x308a3120%N); (51, 0, 0x308a3120%N); (52, 0, 0x208a3120%N); (53, 0, 0x208a3120%N); (54, 0, 0x883120%N); (55, 0, 0x883120%N); (57, 0, 0x883120%N); (58, 0, 0x883120%N); (58, 2, 0x883120%N); (59, 0, 0x883120%N); (60, 0, 0x883120%N); (61, 0, 0x883120%N); (62, 0, 0x883120%N); (63, 0, 0x883120%N); (64, 0, 0x883120%N)]
     [(1%N, 1); (3%N, 2); (4%N, 3); (6%N, 4); (24%N, 7); (32%N, 12); (34%N, 14); (42%N, 19); (44%N, 20); (45%N, 21); (48%N, 24); (61%N, 30); (1000%N, 58); (1001%N, 57); (1003%N, 68); (1004%N, 42); (1005%N, 56); (1006%N, 39); (1007%N, 62); (1008%N, 59); (1009%N, 48); (1010%N, 40); (1011%N, 49); (1012%N, 53); (1013%N, 54); (1014%N, 55); (1015%N, 43); (1017%N, 188)];
   mkst [(0, 0, 0x81073a288c32dffffc%N); (1, 0, 0x81073a288c32dffffc%N); (2, 0, 0x81073a288c32dffffc%N); (3, 0, 0x81073a288c32dffffc%N); (4, 0, 0x81073a288c32dffffc%N); (5, 0, 0x81073a288c32dffffc%N); (6, 0, 0x81073a288c32dffffc%N); (7, 0, 0x81073a288c32dffffc%N); (8, 0, 0x81073a288c32dffffc%N); (9, 0, 0x81073a288c32dffffc%N); (10, 0, 0x81073a288c32dffffc%N); (11, 0, 0x81073a288c32dffffc%N); (12, 0, 0x81073a288c32dffffc%N); (15, 0, 0x81071a088832dbfbec%N); (16, 0, 0x81071a088832dbfbec%N); (17, 0, 0x81071a088832dbfbec%N); (18, 0, 0x81071a088832dbfbec%N); (19, 0, 0x81071a088832dbfbec%N); (20, 0, 0x81071a088832dbfbec%N); (21, 0, 0x81071a088832dbfbec%N); (22, 0, 0x81071a088832dbfbec%N); (23, 0, 0x81071a088832dbfbec%N); (24, 0, 0x612088030db7bec%N); (25, 0, 0x612088030db7bec%N); (26, 0, 0x612088030db7bec%N); (27, 0, 0x612088030db7bec%N); (28, 0, 0x612088030db7bec%N); (29, 0, 0x612088030db7bec%N); (30, 0, 0x612088030db73a8%N); (31, 0, 0x612088030db73a8%N); (32, 0, 0x612088030db73a8%N); (33, 0, 0x612088030db7128%N); (34, 0, 0x612088030db7128%N); (35, 0, 0x612088030db7128%N); (36, 0, 0x12088030db7128%N); (37, 0, 0x12088030db7128%N); (38, 0, 0x12088030db7128%N); (39, 0, 0x12088030db7128%N); (40, 0, 0x12088030db7128%N); (41, 0, 0x10008030da3128%N); (42, 0, 0x10008030da3128%N); (43, 0, 0x10008030da3128%N); (44, 0, 0x30da3128%N); (45, 0, 0x30da3128%N); (46, 0, 0x30da3120%N); (47, 0, 0x30da3120%N); (48, 0, 0x30ca3120%N); (49, 0, 0x30ca3120%N); (50, 0, 0x308a3120%N); (51, 0, 0x308a3120%N); (52, 0, 0x208a3120%N); (53, 0, 0x208a3120%N); (54, 0, 0x883120%N); (55, 0, 0x883120%N); (57, 0, 0x883120%N); (58, 0, 0x883120%N); (59, 0, 0x883120%N); (59, 2, 0x883120%N); (60, 0, 0x883120%N); (61, 0, 0x883120%N); (62, 0, 0x883120%N); (63, 0, 0x883120%N); (64, 0, 0x883120%N)]
     [(1%N, 1); (3%N, 2); (4%N, 3); (6%N, 4); (24%N, 7); (32%N, 12); (34%N, 14); (42%N, 19); (44%N, 20); (45%N, 21); (48%N, 24); (61%N, 30); (1000%N, 58); (1001%N, 57); (1003%N, 68); (1004%N, 42); (1005%N, 56); (1006%N, 39); (1007%N, 62); (1008%N, 59); (1009%N, 48); (1010%N, 40); (1011%N, 49); (1012%N, 53); (1013%N, 54); (1014%N, 55); (1015%N, 43); (1017%N, 189)];
   mkst [(0, 0, 0x81073a288c32dffffc%N); (1, 0, 0x81073a288c32dffffc%N); (2, 0, 0x81073a288c32dffffc%N); (3, 0, 0x81073a288c32dffffc%N); (4, 0, 0x81073a288c32dffffc%N); (5, 0, 0x81073a288c32dffffc%N); (6, 0, 0x81073a288c32dffffc%N); (7, 0, 0x81073a288c32dffffc%N); (8, 0, 0x81073a288c32dffffc%N); (9, 0, 0x81073a288c32dffffc%N); (10, 0, 0x81073a288c32dffffc%N); (11, 0, 0x81073a288c32dffffc%N); (12, 0, 0x81073a288c32dffffc%N); (15, 0, 0x81071a088832dbfbec%N); (16, 0, 0x81071a088832dbfbec%N); (17, 0, 0x81071a088832dbfbec%N); (18, 0, 0x81071a088832dbfbec%N); (19, 0, 0x81071a088832dbfbec%N); (20, 0, 0x81071a088832dbfbec%N); (21, 0, 0x81071a088832dbfbec%N); (22, 0, 0x81071a088832dbfbec%N); (23, 0, 0x81071a088832dbfbec%N); (24, 0, 0x612088030db7bec%N); (25, 0, 0x612088030db7bec%N); (26, 0, 0x612088030db7bec%N); (27, 0, 0x612088030db7bec%N); (28, 0, 0x612088030db7bec%N); (29, 0, 0x612088030db7bec%N); (30, 0, 0x612088030db73a8%N); (31, 0, 0x612088030db73a8%N); (32, 0, 0x612088030db73a8%N); (33, 0, 0x612088030db7128%N); (34, 0, 0x612088030db7128%N); (35, 0, 0x612088030db7128%N); (36, 0, 0x12088030db7128%N); (37, 0, 0x12088030db7128%N); (38, 0, 0x12088030db7128%N); (39, 0, 0x12088030db7128%N); (40, 0, 0x12088030db7128%N); (41, 0, 0x10008030da3128%N); (42, 0, 0x10008030da3128%N); (43, 0, 0x10008030da3128%N); (44, 0, 0x30da3128%N); (45, 0, 0x30da3128%N); (46, 0, 0x30da3120%N); (47, 0, 0x30da3120%N); (48, 0, 0x30ca3120%N); (49, 0, 0x30ca3120%N); (50, 0, 0x308a3120%N); (51, 0, 0x308a3120%N); (52, 0, 0x208a3120%N); (53, 0, 0x208a3120%N); (54, 0, 0x883120%N); (55, 0, 0x883120%N); (57, 0, 0x883120%N); (58, 0, 0x883120%N); (59, 0, 0x883120%N); (60, 0, 0x883120%N); (61, 0, 0x883120%N); (61, 2, 0x883120%N); (62, 0, 0x883120%N); (63, 0, 0x883120%N); (64, 0, 0x883120%N)]
     [(1%N, 1); (3%N, 2); (4%N, 3); (6%N, 4); (24%N, 7); (32%N, 12); (34%N, 14); (42%N, 19); (44%N, 20); (45%N, 21); (48%N, 24); (61%N, 30); (1000%N, 58); (1001%N, 57); (1003%N, 68); (1004%N, 42); (1005%N, 56); (1006%N, 39); (1007%N, 62); (1008%N, 59); (1009%N, 48); (1010%N, 40); (1011%N, 49); (1012%N, 53); (1013%N, 54); (1014%N, 55); (1015%N, 43); (1017%N, 190)];
   mkst [(0, 0, 0x81073a288c32dffffc%N); (1, 0, 0x81073a288c32dffffc%N); (2, 0, 0x81073a288c32dffffc%N); (3, 0, 0x81073a288c32dffffc%N); (4, 0, 0x81073a288c32dffffc%N); (5, 0, 0x81073a288c32dffffc%N); (6, 0, 0x81073a288c32dffffc%N); (7, 0, 0x81073a288c32dffffc%N); (8, 0, 0x81073a288c32dffffc%N); (9, 0, 0x81073a288c32dffffc%N); (10, 0, 0x81073a288c32dffffc%N); (11, 0, 0x81073a288c32dffffc%N); (12, 0, 0x81073a288c32dffffc%N); (15, 0, 0x81071a088832dbfbec%N); (16, 0, 0x81071a088832dbfbec%N); (17, 0, 0x81071a088832dbfbec%N); (18, 0, 0x81071a088832dbfbec%N); (19, 0, 0x81071a088832dbfbec%N); (20, 0, 0x81071a088832dbfbec%N); (21, 0, 0x81071a088832dbfbec%N); (22, 0, 0x81071a088832dbfbec%N); (23, 0, 0x81071a088832dbfbec%N); (24, 0, 0x612088030db7bec%N); (25, 0, 0x612088030db7bec%N); (26, 0, 0x612088030db7bec%N); (27, 0, 0x612088030db7bec%N); (28, 0, 0x612088030db7bec%N); (29, 0, 0x612088030db7bec%N); (30, 0, 0x612088030db73a8%N); (31, 0, 0x612088030db73a8%N); (32, 0, 0x612088030db73a8%N); (33, 0, 0x612088030db7128%N); (34, 0, 0x612088030db7128%N); (35, 0, 0x612088030db7128%N); (36, 0, 0x12088030db7128%N); (37, 0, 0x12088030db7128%N); (38, 0, 0x12088030db7128%N); (39, 0, 0x12088030db7128%N); (40, 0, 0x12088030db7128%N); (41, 0, 0x10008030da3128%N); (42, 0, 0x10008030da3128%N); (43, 0, 0x10008030da3128%N); (44, 0, 0x30da3128%N); (45, 0, 0x30da3128%N); (46, 0, 0x30da3120%N); (47, 0, 0x30da3120%N); (48, 0, 0x30ca3120%N); (49, 0, 0x30ca3120%N); (50, 0, 0x308a3120%N); (51, 0, 0x308a3120%N); (52, 0, 0x208a3120%N); (53, 0, 0x208a3120%N); (54, 0, 0x883120%N); (55, 0, 0x883120%N); (57, 0, 0x883120%N); (58, 0, 0x883120%N); (59, 0, 0x883120%N); (60, 0, 0x883120%N); (61, 0, 0x883120%N); (62, 0, 0x883120%N); (62, 2, 0x883120%N); (63, 0, 0x883120%N); (64, 0, 0x883120%N)]
     [(1%N, 1); (3%N, 2); (4%N, 3); (6%N, 4); (24%N, 7); (32%N, 12); (34%N, 14); (42%N, 19); (44%N, 20); (45%N, 21); (48%N, 24); (61%N, 30); (1000%N, 58); (1001%N, 57); (1003%N, 68); (1004%N, 42); (1005%N, 56); (1006%N, 39); (1007%N, 62); (1008%N, 59); (1009%N, 48); (1010%N, 40); (1011%N, 49); (1012%N, 53); (1013%N, 54); (1014%N, 55); (1015%N, 43); (1017%N, 191)];
   mkst [(0, 0, 0x81073a288c32dffffc%N); (1, 0, 0x81073a288c32dffffc%N); (2, 0, 0x81073a288c32dffffc%N); (3, 0, 0x81073a288c32dffffc%N); (4, 0, 0x81073a288c32dffffc%N); (5, 0, 0x81073a288c32dffffc%N); (6, 0, 0x81073a288c32dffffc%N); (7, 0, 0x81073a288c32dffffc%N); (8, 0, 0x81073a288c32dffffc%N); (9, 0, 0x81073a288c32dffffc%N); (10, 0, 0x81073a288c32dffffc%N); (11, 0, 0x81073a288c32dffffc%N); (12, 0, 0x81073a288c32dffffc%N); (15, 0, 0x81071a088832dbfbec%N); (16, 0, 0x81071a088832dbfbec%N); (17, 0, 0x81071a088832dbfbec%N); (18, 0, 0x81071a088832dbfbec%N); (19, 0, 0x81071a088832dbfbec%N); (20, 0, 0x81071a088832dbfbec%N); (21, 0, 0x81071a088832dbfbec%N); (22, 0, 0x81071a088832dbfbec%N); (23, 0, 0x81071a088832dbfbec%N); (24, 0, 0x612088030db7bec%N); (25, 0, 0x612088030db7bec%N); (26, 0, 0x612088030db7bec%N); (27, 0, 0x612088030db7bec%N); (28, 0, 0x612088030db7bec%N); (29, 0, 0x612088030db7bec%N); (30, 0, 0x612088030db73a8%N); (31, 0, 0x612088030db73a8%N); (32, 0, 0x612088030db73a8%N); (33, 0, 0x612088030db7128%N); (34, 0, 0x612088030db7128%N); (35, 0, 0x612088030db7128%N); (36, 0, 0x12088030db7128%N); (37, 0, 0x12088030db7128%N); (38, 0, 0x12088030db7128%N); (39, 0, 0x12088030db7128%N); (40, 0, 0x12088030db7128%N); (41, 0, 0x10008030da3128%N); (42, 0, 0x10008030da3128%N); (43, 0, 0x10008030da3128%N); (44, 0, 0x30da3128%N); (45, 0, 0x30da3128%N); (46, 0, 0x30da3120%N); (47, 0, 0x30da3120%N); (48, 0, 0x30ca3120%N); (49, 0, 0x30ca3120%N); (50, 0, 0x308a3120%N); (51, 0, 0x308a3120%N); (52, 0, 0x208a3120%N); (53, 0, 0x208a3120%N); (54, 0, 0x883120%N); (55, 0, 0x883120%N); (57, 0, 0x883120%N); (58, 0, 0x883120%N); (59, 0, 0x883120%N); (60, 0, 0x883120%N); (61, 0, 0x883120%N); (62, 0, 0x883120%N); (63, 0, 0x883120%N); (63, 2, 0x883120%N); (64, 0, 0x883120%N)]
     [(1%N, 1); (3%N, 2); (4%N, 3); (6%N, 4); (24%N, 7); (32%N, 12); (34%N, 14); (42%N, 19); (44%N, 20); (45%N, 21); (48%N, 24); (61%N, 30); (1000%N, 58); (1001%N, 57); (1003%N, 68); (1004%N, 42); (1005%N, 56); (1006%N, 39); (1007%N, 62); (1008%N, 59); (1009%N, 48); (1010%N, 40); (1011%N, 49); (1012%N, 53); (1013%N, 54); (1014%N, 55); (1015%N, 43); (1017%N, 192)];
   mkst [(0, 0, 0x81073a288c32dffffc%N); (1, 0, 0x81073a288c32dffffc%N); (2, 0, 0x81073a288c32dffffc%N); (3, 0, 0x81073a288c32dffffc%N); (4, 0, 0x81073a288c32dffffc%N); (5, 0, 0x81073a288c32dffffc%N); (6, 0, 0x81073a288c32dffffc%N); (7, 0, 0x81073a288c32dffffc%N); (8, 0, 0x81073a288c32dffffc%N); (9, 0, 0x81073a288c32dffffc%N); (10, 0, 0x81073a288c32dffffc%N); (11, 0, 0x81073a288c32dffffc%N); (12, 0, 0x81073a288c32dffffc%N); (15, 0, 0x81071a088832dbfbec%N); (16, 0, 0x81071a088832dbfbec%N); (17, 0, 0x81071a088832dbfbec%N); (18, 0, 0x81071a088832dbfbec%N); (19, 0, 0x81071a088832dbfbec%N); (20, 0, 0x81071a088832dbfbec%N); (21, 0, 0x81071a088832dbfbec%N); (22, 0, 0x81071a088832dbfbec%N); (23, 0, 0x81071a088832dbfbec%N); (24, 0, 0x612088030db7bec%N); (25, 0, 0x612088030db7bec%N); (26, 0, 0x612088030db7bec%N); (27, 0, 0x612088030db7bec%N); (28, 0, 0x612088030db7bec%N); (29, 0, 0x612088030db7bec%N); (30, 0, 0x612088030db73a8%N); (31, 0, 0x612088030db73a8%N); (32, 0, 0x612088030db73a8%N); (33, 0, 0x612088030db7128%N); (34, 0, 0x612088030db7128%N); (35, 0, 0x612088030db7128%N); (36, 0, 0x12088030db7128%N); (37, 0, 0x12088030db7128%N); (38, 0, 0x12088030db7128%N); (39, 0, 0x12088030db7128%N); (40, 0, 0x12088030db7128%N); (41, 0, 0x10008030da3128%N); (42, 0, 0x10008030da3128%N); (43, 0, 0x10008030da3128%N); (44, 0, 0x30da3128%N); (45, 0, 0x30da3128%N); (46, 0, 0x30da3120%N); (47, 0, 0x30da3120%N); (48, 0, 0x30ca3120%N); (49, 0, 0x30ca3120%N); (50, 0, 0x308a3120%N); (51, 0, 0x308a3120%N); (52, 0, 0x208a3120%N); (53, 0, 0x208a3120%N); (54, 0, 0x883120%N); (55, 0, 0x883120%N); (57, 0, 0x883120%N); (58, 0, 0x883120%N); (59, 0, 0x883120%N); (60, 0, 0x883120%N); (60, 2, 0x883120%N); (61, 0, 0x883120%N); (62, 0, 0x883120%N); (63, 0, 0x883120%N); (64, 0, 0x883120%N)]
     [(1%N, 1); (3%N, 2); (4%N, 3); (6%N, 4); (24%N, 7); (32%N, 12); (34%N, 14); (42%N, 19); (44%N, 20); (45%N, 21); (48%N, 24); (61%N, 30); (1000%N, 58); (1001%N, 57); (1003%N, 68); (1004%N, 42); (1005%N, 56); (1006%N, 39); (1007%N, 62); (1008%N, 59); (1009%N, 48); (1010%N, 40); (1011%N, 49); (1012%N, 53); (1013%N, 54); (1014%N, 55); (1015%N, 43); (1017%N, 193)];
   mkst [(0, 0, 0x81073a288c32dffffc%N); (1, 0, 0x81073a288c32dffffc%N); (2, 0, 0x81073a288c32dffffc%N); (3, 0, 0x81073a288c32dffffc%N); (4, 0, 0x81073a288c32dffffc%N); (5, 0, 0x81073a288c32dffffc%N); (6, 0, 0x81073a288c32dffffc%N); (7, 0, 0x81073a288c32dffffc%N); (8, 0, 0x81073a288c32dffffc%N); (9, 0, 0x81073a288c32dffffc%N); (10, 0, 0x81073a288c32dffffc%N); (11, 0, 0x81073a288c32dffffc%N); (12, 0, 0x81073a288c32dffffc%N); (15, 0, 0x81071a088832dbfbec%N); (16, 0, 0x81071a088832dbfbec%N); (17, 0, 0x81071a088832dbfbec%N); (18, 0, 0x81071a088832dbfbec%N); (19, 0, 0x81071a088832dbfbec%N); (20, 0, 0x81071a088832dbfbec%N); (21, 0, 0x81071a088832dbfbec%N); (22, 0, 0x81071a088832dbfbec%N); (23, 0, 0x81071a088832dbfbec%N); (24, 0, 0x612088030db7bec%N); (25, 0, 0x612088030db7bec%N); (26, 0, 0x612088030db7bec%N); (27, 0, 0x612088030db7bec%N); (28, 0, 0x612088030db7bec%N); (29, 0, 0x612088030db7bec%N); (30, 0, 0x612088030db73a8%N); (31, 0, 0x612088030db73a8%N); (32, 0, 0x612088030db73a8%N); (33, 0, 0x612088030db7128%N); (34, 0, 0x612088030db7128%N); (35, 0, 0x612088030db7128%N); (36, 0, 0x12088030db7128%N); (37, 0, 0x12088030db7128%N); (38, 0, 0x12088030db7128%N); (39, 0, 0x12088030db7128%N); (40, 0, 0x12088030db7128%N); (41, 0, 0x10008030da3128%N); (42, 0, 0x10008030da3128%N); (43, 0, 0x10008030da3128%N); (44, 0, 0x30da3128%N); (45, 0, 0x30da3128%N); (46, 0, 0x30da3120%N); (47, 0, 0x30da3120%N); (48, 0, 0x30ca3120%N); (49, 0, 0x30ca3120%N); (50, 0, 0x308a3120%N); (51, 0, 0x308a3120%N); (52, 0, 0x208a3120%N); (53, 0, 0x208a3120%N); (54, 0, 0x883120%N); (55, 0, 0x883120%N); (57, 0, 0x883120%N); (58, 0, 0x883120%N); (59, 0, 0x883120%N); (60, 0, 0x883120%N); (61, 0, 0x883120%N); (62, 0, 0x883120%N); (63, 0, 0x883120%N); (64, 0, 0x883120%N); (64, 2, 0x883120%N)]
     [(1%N, 1); (3%N, 2); (4%N, 3); (6%N, 4); (24%N, 7); (32%N, 12); (34%N, 14); (42%N, 19); (44%N, 20); (45%N, 21); (48%N, 24); (61%N, 30); (1000%N, 58); (1001%N, 57); (1003%N, 68); (1004%N, 42); (1005%N, 56); (1006%N, 39); (1007%N, 62); (1008%N, 59); (1009%N, 48); (1010%N, 40); (1011%N, 49); (1012%N, 53); (1013%N, 54); (1014%N, 55); (1015%N, 43); (1017%N, 194)];
   mkst [(4, 3, 0x81073a288c32dffffc%N)]
     [];
   mkst [(69, 0, 0x7ed8c4d350cc040170%N); (70, 0, 0x7ed8c4d350cc040170%N); (71, 0, 0x7ed8c4d350cc040170%N); (72, 0, 0x7ed8c4d350cc040170%N); (73, 0, 0x7ed8c4d350cc040170%N); (74, 0, 0x7ed8c4d350cc040170%N); (79, 0, 0x7ed8c4d350cc040170%N); (80, 0, 0x7ed8c4d350cc040170%N); (81, 0, 0x7ed8c4d350cc040170%N); (82, 0, 0x7ed8c4d350cc040170%N); (83, 0, 0x7ed8c4d350cc040170%N); (84, 0, 0x7ed8c4d350cc040170%N); (85, 0, 0x7ed8c4d350cc040170%N); (86, 0, 0x7ed8c4d350cc040170%N); (87, 0, 0x7ed8c4d350cc040170%N); (88, 0, 0x7ed8c4d350cc040170%N); (89, 0, 0x7ed8c4d350cc040170%N); (90, 0, 0x7ed8c4d350cc040170%N); (91, 0, 0x7ed8c4d350cc040170%N); (92, 0, 0x7ed8c4d350cc040170%N); (93, 0, 0x7ed8c4d350cc040170%N); (94, 0, 0x7ed8c4d350cc040170%N); (95, 0, 0x7ed8c4d350cc040170%N); (96, 0, 0x7ed8c4d350cc040170%N); (97, 0, 0x7ed8c4d350cc040170%N); (98, 0, 0x7ed8c4d350cc040170%N); (99, 0, 0x7ed8c4d350cc040170%N); (100, 0, 0x100000200000%N); (101, 0, 0x100000200000%N); (115, 0, 0x7ed8c4d350cc040170%N); (116, 0, 0x7ed8c4d350cc040170%N); (117, 0, 0x7ed8c4d350cc040170%N); (118, 0, 0x7ed8c4d350cc040170%N); (119, 0, 0x7ed8c4d350cc040170%N); (124, 0, 0x7ed8c4d350cc040170%N); (125, 0, 0x7ed8c4d350cc040170%N); (126, 0, 0x7ed8c4d350cc040170%N); (127, 0, 0x7ed8c4d350cc040170%N); (143, 0, 0x40030%N); (144, 0, 0x40030%N); (145, 0, 0x40030%N); (146, 0, 0x40030%N); (149, 0, 0x20%N); (150, 0, 0x20%N); (151, 0, 0x120%N); (152, 0, 0x120%N); (153, 0, 0x120%N); (154, 0, 0x120%N); (155, 0, 0x120%N); (160, 0, 0x20%N); (161, 0, 0x20%N); (162, 0, 0x20%N); (163, 0, 0x40030%N); (163, 1, 0x40030%N); (164, 0, 0x40030%N); (165, 0, 0x40030%N); (166, 0, 0x40030%N); (167, 0, 0x40030%N); (168, 0, 0x40030%N); (169, 0, 0x40030%N); (170, 0, 0x40030%N); (170, 1, 0x40030%N); (171, 0, 0x40030%N); (171, 1, 0x40030%N); (172, 0, 0x40030%N); (173, 0, 0x40030%N)]
     [(4%N, 135); (5%N, 195); (6%N, 91); (18%N, 136); (26%N, 8); (27%N, 9); (30%N, 10); (31%N, 11); (36%N, 15); (38%N, 16); (40%N, 17); (41%N, 18); (46%N, 22); (47%N, 23); (50%N, 25); (54%N, 26); (55%N, 27); (59%N, 28); (60%N, 29); (62%N, 31); (63%N, 32); (65%N, 33); (66%N, 34); (67%N, 35); (68%N, 36); (69%N, 37); (70%N, 38); (1020%N, 197); (1021%N, 45); (1024%N, 63); (1025%N, 67); (1026%N, 65); (1027%N, 64); (1034%N, 47); (1037%N, 66); (1038%N, 52); (1041%N, 139); (1043%N, 200); (1044%N, 199); (1045%N, 198); (1048%N, 196); (1049%N, 138)];
   mkst [(0, 0, 0x81073a288c325fcedc%N); (1, 0, 0x81073a288c325fcedc%N); (2, 0, 0x81073a288c325fcedc%N); (3, 0, 0x81073a288c325fcedc%N); (4, 0, 0x81073a288c325fcedc%N); (5, 0, 0x81073a288c325fcedc%N); (6, 0, 0x81073a288c325fcedc%N); (7, 0, 0x81073a288c325fcedc%N); (8, 0, 0x81073a288c325fcedc%N); (9, 0, 0x81073a288c325fcedc%N); (10, 0, 0x81073a288c325fcedc%N); (11, 0, 0x81073a288c325fcedc%N); (12, 0, 0x81073a288c325fcedc%N); (15, 0, 0x81071a0888325bcacc%N); (16, 0, 0x81071a0888325bcacc%N); (17, 0, 0x81071a0888325bcacc%N); (18, 0, 0x81071a0888325bcacc%N); (19, 0, 0x81071a0888325bcacc%N); (20, 0, 0x81071a0888325bcacc%N); (21, 0, 0x81071a0888325bcacc%N); (22, 0, 0x81071a0888325bcacc%N); (23, 0, 0x81071a0888325bcacc%N); (24, 0, 0x6120880305b4acc%N); (25, 0, 0x6120880305b4acc%N); (26, 0, 0x6120880305b4acc%N); (27, 0, 0x6120880305b4acc%N); (28, 0, 0x6120880305b4acc%N); (29, 0, 0x6120880305b4acc%N); (30, 0, 0x6120880305b4288%N); (31, 0, 0x6120880305b4288%N); (32, 0, 0x6120880305b4288%N); (33, 0, 0x6120880305b4008%N); (34, 0, 0x6120880305b4008%N); (35, 0, 0x6120880305b4008%N); (36, 0, 0x120880305b4008%N); (37, 0, 0x120880305b4008%N); (38, 0, 0x120880305b4008%N); (39, 0, 0x120880305b4008%N); (40, 0, 0x120880305b4008%N); (41, 0, 0x100080305a0008%N); (42, 0, 0x100080305a0008%N); (43, 0, 0x100080305a0008%N); (44, 0, 0x305a0008%N); (45, 0, 0x305a0008%N); (46, 0, 0x305a0000%N); (47, 0, 0x305a0000%N); (48, 0, 0x304a0000%N); (49, 0, 0x304a0000%N); (50, 0, 0x300a0000%N); (51, 0, 0x300a0000%N); (52, 0, 0x200a0000%N); (53, 0, 0x200a0000%N); (54, 0, 0x80000%N); (55, 0, 0x80000%N); (57, 0, 0x80000%N); (58, 0, 0x80000%N); (59, 0, 0x80000%N); (60, 0, 0x80000%N); (61, 0, 0x80000%N); (62, 0, 0x80000%N); (63, 0, 0x80000%N); (64, 0, 0x80000%N); (164, 1, 0x40130%N); (165, 1, 0x40130%N); (168, 1, 0x40130%N)]
     [(1%N, 1); (3%N, 2); (4%N, 3); (6%N, 201); (19%N, 202); (24%N, 7); (32%N, 12); (34%N, 14); (42%N, 19); (44%N, 20); (45%N, 21); (48%N, 24); (61%N, 30); (1000%N, 58); (1001%N, 57); (1003%N, 68); (1004%N, 42); (1005%N, 56); (1006%N, 39); (1007%N, 62); (1008%N, 59); (1009%N, 48); (1010%N, 40); (1011%N, 49); (1012%N, 53); (1013%N, 54); (1014%N, 55); (1015%N, 43); (1017%N, 203)];
   mkst [(159, 2, 0x20%N)]
     [];
   mkst [(161, 1, 0x120%N); (166, 1, 0x40130%N); (167, 1, 0x40130%N); (169, 1, 0x40130%N); (172, 1, 0x40130%N); (173, 1, 0x40130%N)]
     [(4%N, 204); (18%N, 205)];
   mkst [(160, 1, 0x20%N); (162, 1, 0x20%N); (163, 0, 0x40030%N); (164, 0, 0x40030%N); (165, 0, 0x40030%N); (166, 0, 0x40030%N); (167, 0, 0x40030%N); (168, 0, 0x40030%N); (169, 0, 0x40030%N); (170, 0, 0x40030%N); (171, 0, 0x40030%N); (172, 0, 0x40030%N); (173, 0, 0x40030%N)]
     [(4%N, 135); (18%N, 136); (1049%N, 206)];
   mkst [(107, 2, 0x7c98849250c8043070%N)]
     [];
   mkst [(0, 0, 0x632288430df7ffc%N); (1, 0, 0x632288430df7ffc%N); (2, 0, 0x632288430df7ffc%N); (3, 0, 0x632288430df7ffc%N); (4, 0, 0x632288430df7ffc%N); (5, 0, 0x632288430df7ffc%N); (6, 0, 0x632288430df7ffc%N); (7, 0, 0x632288430df7ffc%N); (8, 0, 0x632288430df7ffc%N); (9, 0, 0x632288430df7ffc%N); (10, 0, 0x632288430df7ffc%N); (11, 0, 0x632288430df7ffc%N); (12, 0, 0x632288430df7ffc%N); (15, 0, 0x612088030db7bec%N); (16, 0, 0x612088030db7bec%N); (17, 0, 0x612088030db7bec%N); (18, 0, 0x612088030db7bec%N); (19, 0, 0x612088030db7bec%N); (20, 0, 0x612088030db7bec%N); (21, 0, 0x612088030db7bec%N); (22, 0, 0x612088030db7bec%N); (23, 0, 0x612088030db7bec%N); (24, 0, 0x612088030db7bec%N); (25, 0, 0x612088030db7bec%N); (25, 3, 0x612088030db7bec%N)]
     [(1%N, 1); (3%N, 2); (4%N, 3); (6%N, 4); (24%N, 7); (32%N, 12); (34%N, 14); (42%N, 19); (44%N, 20); (45%N, 21); (48%N, 24); (61%N, 30); (1000%N, 58); (1001%N, 57); (1003%N, 148); (1004%N, 207)];
   mkst [(122, 1, 0x800100%N); (123, 1, 0x800100%N)]
     [(15%N, 208)];
   mkst [(120, 1, 0x800100%N)]
     [];
   mkst [(115, 3, 0x7ed8c4d350cc043170%N); (117, 3, 0x7ed8c4d350cc043170%N); (121, 1, 0x800100%N)]
     [(8%N, 209); (23%N, 210)];
   mkst [(116, 3, 0x7ed8c4d350cc043170%N); (118, 3, 0x7ed8c4d350cc043170%N); (120, 0, 0x800100%N); (121, 0, 0x800100%N); (122, 0, 0x800100%N); (123, 0, 0x800100%N)]
     [(44%N, 142); (1035%N, 211); (1036%N, 143)];
   mkst [(23, 3, 0x81071a088832dbfbec%N)]
     [(5%N, 212)];
   mkst [(27, 1, 0x612088030db7bec%N); (28, 1, 0x612088030db7bec%N); (29, 1, 0x612088030db7bec%N); (31, 3, 0x612088030db73a8%N)]
     [(2%N, 109); (6%N, 110); (11%N, 111)];
   mkst [(24, 1, 0x612088030db7bec%N)]
     [];
   mkst [(27, 1, 0x612088030db7bec%N); (28, 1, 0x612088030db7bec%N); (29, 1, 0x612088030db7bec%N); (32, 3, 0x612088030db73a8%N)]
     [(2%N, 109); (6%N, 110); (11%N, 111)];
   mkst [(42, 1, 0x10008030da3128%N); (43, 1, 0x10008030da3128%N); (45, 3, 0x30da3128%N)]
     [(39%N, 100); (52%N, 101)];
   mkst [(131, 2, 0x4b130%N)]
     [(5%N, 213)];
   mkst [(145, 2, 0x100000040130%N)]
     [];
   mkst [(147, 1, 0x4060813405810c017a%N)]
     [];
   mkst [(124, 0, 0x400080100080040170%N); (125, 0, 0x400080100080040170%N); (126, 0, 0x400080100080040170%N); (143, 0, 0x100000040130%N); (144, 0, 0x100000040130%N); (144, 2, 0x100000040130%N); (145, 0, 0x100000040130%N); (146, 0, 0x100000040130%N); (146, 2, 0x100000040130%N); (148, 1, 0x400080100080040170%N)]
     [(6%N, 91); (31%N, 11); (55%N, 27); (70%N, 38); (1037%N, 215); (1041%N, 214)];
   mkst [(0, 0, 0x81073a288c3257efdc%N); (1, 0, 0x81073a288c3257efdc%N); (2, 0, 0x81073a288c3257efdc%N); (3, 0, 0x81073a288c3257efdc%N); (4, 0, 0x81073a288c3257efdc%N); (5, 0, 0x81073a288c3257efdc%N); (6, 0, 0x81073a288c3257efdc%N); (7, 0, 0x81073a288c3257efdc%N); (8, 0, 0x81073a288c3257efdc%N); (9, 0, 0x81073a288c3257efdc%N); (10, 0, 0x81073a288c3257efdc%N); (11, 0, 0x81073a288c3257efdc%N); (12, 0, 0x81073a288c3257efdc%N); (15, 0, 0x81071a08883253ebcc%N); (16, 0, 0x81071a08883253ebcc%N); (17, 0, 0x81071a08883253ebcc%N); (18, 0, 0x81071a08883253ebcc%N); (19, 0, 0x81071a08883253ebcc%N); (20, 0, 0x81071a08883253ebcc%N); (21, 0, 0x81071a08883253ebcc%N); (22, 0, 0x81071a08883253ebcc%N); (23, 0, 0x81071a08883253ebcc%N); (24, 0, 0x612088030536bcc%N); (25, 0, 0x612088030536bcc%N); (26, 0, 0x612088030536bcc%N); (27, 0, 0x612088030536bcc%N); (28, 0, 0x612088030536bcc%N); (29, 0, 0x612088030536bcc%N); (30, 0, 0x612088030536388%N); (31, 0, 0x612088030536388%N); (32, 0, 0x612088030536388%N); (33, 0, 0x612088030536108%N); (34, 0, 0x612088030536108%N); (35, 0, 0x612088030536108%N); (36, 0, 0x12088030536108%N); (37, 0, 0x12088030536108%N); (38, 0, 0x12088030536108%N); (39, 0, 0x12088030536108%N); (40, 0, 0x12088030536108%N); (41, 0, 0x10008030522108%N); (42, 0, 0x10008030522108%N); (43, 0, 0x10008030522108%N); (44, 0, 0x30522108%N); (45, 0, 0x30522108%N); (46, 0, 0x30522100%N); (47, 0, 0x30522100%N); (48, 0, 0x30422100%N); (49, 0, 0x30422100%N); (50, 0, 0x30022100%N); (51, 0, 0x30022100%N); (52, 0, 0x20022100%N); (53, 0, 0x20022100%N); (54, 0, 0x2100%N); (55, 0, 0x2100%N); (57, 0, 0x2100%N); (58, 0, 0x2100%N); (59, 0, 0x2100%N); (60, 0, 0x2100%N); (61, 0, 0x2100%N); (62, 0, 0x2100%N); (63, 0, 0x2100%N); (64, 0, 0x2100%N); (78, 2, 0x2100%N); (174, 0, 0x2100%N); (175, 0, 0x2100%N); (176, 0, 0x2100%N)]
     [(1%N, 1); (3%N, 2); (4%N, 3); (6%N, 4); (21%N, 216); (24%N, 7); (32%N, 12); (34%N, 14); (42%N, 19); (44%N, 20); (45%N, 21); (48%N, 24); (61%N, 30); (1000%N, 58); (1001%N, 57); (1003%N, 68); (1004%N, 42); (1005%N, 56); (1006%N, 39); (1007%N, 62); (1008%N, 59); (1009%N, 48); (1010%N, 40); (1011%N, 49); (1012%N, 53); (1013%N, 54); (1014%N, 55); (1015%N, 43); (1017%N, 217); (1050%N, 218)];
   mkst [(69, 0, 0x7ed8c4d350cc040170%N); (70, 0, 0x7ed8c4d350cc040170%N); (71, 0, 0x7ed8c4d350cc040170%N); (72, 0, 0x7ed8c4d350cc040170%N); (73, 0, 0x7ed8c4d350cc040170%N); (74, 0, 0x7ed8c4d350cc040170%N); (79, 0, 0x7ed8c4d350cc040170%N); (80, 0, 0x7ed8c4d350cc040170%N); (81, 0, 0x7ed8c4d350cc040170%N); (82, 0, 0x7ed8c4d350cc040170%N); (83, 0, 0x7ed8c4d350cc040170%N); (84, 0, 0x7ed8c4d350cc040170%N); (85, 0, 0x7ed8c4d350cc040170%N); (86, 0, 0x7ed8c4d350cc040170%N); (87, 0, 0x7ed8c4d350cc040170%N); (88, 0, 0x7ed8c4d350cc040170%N); (89, 0, 0x7ed8c4d350cc040170%N); (90, 0, 0x7ed8c4d350cc040170%N); (91, 0, 0x7ed8c4d350cc040170%N); (92, 0, 0x7ed8c4d350cc040170%N); (93, 0, 0x7ed8c4d350cc040170%N); (94, 0, 0x7ed8c4d350cc040170%N); (95, 0, 0x7ed8c4d350cc040170%N); (96, 0, 0x7ed8c4d350cc040170%N); (97, 0, 0x7ed8c4d350cc040170%N); (98, 0, 0x7ed8c4d350cc040170%N); (99, 0, 0x7ed8c4d350cc040170%N); (100, 0, 0x100000200000%N); (101, 0, 0x100000200000%N); (115, 0, 0x7ed8c4d350cc040170%N); (116, 0, 0x7ed8c4d350cc040170%N); (117, 0, 0x7ed8c4d350cc040170%N); (118, 0, 0x7ed8c4d350cc040170%N); (119, 0, 0x7ed8c4d350cc040170%N); (124, 0, 0x7ed8c4d350cc040170%N); (125, 0, 0x7ed8c4d350cc040170%N); (126, 0, 0x7ed8c4d350cc040170%N); (127, 0, 0x7ed8c4d350cc040170%N); (140, 2, 0x4b130%N); (141, 2, 0x4b130%N); (142, 2, 0x4b130%N); (149, 0, 0x20%N); (150, 0, 0x20%N); (151, 0, 0x120%N); (152, 0, 0x120%N); (153, 0, 0x120%N); (154, 0, 0x120%N); (155, 0, 0x120%N); (156, 0, 0x120%N); (157, 0, 0x120%N)]
     [(5%N, 219); (26%N, 8); (27%N, 9); (30%N, 10); (31%N, 11); (36%N, 15); (38%N, 16); (40%N, 17); (41%N, 18); (44%N, 220); (46%N, 22); (47%N, 23); (50%N, 25); (54%N, 26); (55%N, 27); (59%N, 28); (60%N, 29); (62%N, 31); (63%N, 32); (65%N, 33); (66%N, 34); (67%N, 35); (68%N, 36); (69%N, 37); (70%N, 38); (1020%N, 197); (1021%N, 45); (1024%N, 63); (1025%N, 67); (1026%N, 65); (1027%N, 64); (1034%N, 47); (1037%N, 66); (1038%N, 52); (1043%N, 222); (1044%N, 199); (1045%N, 198); (1046%N, 221)];
   mkst [(0, 0, 0x81073a288c325fcedc%N); (1, 0, 0x81073a288c325fcedc%N); (2, 0, 0x81073a288c325fcedc%N); (3, 0, 0x81073a288c325fcedc%N); (4, 0, 0x81073a288c325fcedc%N); (5, 0, 0x81073a288c325fcedc%N); (6, 0, 0x81073a288c325fcedc%N); (7, 0, 0x81073a288c325fcedc%N); (8, 0, 0x81073a288c325fcedc%N); (9, 0, 0x81073a288c325fcedc%N); (10, 0, 0x81073a288c325fcedc%N); (11, 0, 0x81073a288c325fcedc%N); (12, 0, 0x81073a288c325fcedc%N); (15, 0, 0x81071a0888325bcacc%N); (16, 0, 0x81071a0888325bcacc%N); (17, 0, 0x81071a0888325bcacc%N); (18, 0, 0x81071a0888325bcacc%N); (19, 0, 0x81071a0888325bcacc%N); (20, 0, 0x81071a0888325bcacc%N); (21, 0, 0x81071a0888325bcacc%N); (22, 0, 0x81071a0888325bcacc%N); (23, 0, 0x81071a0888325bcacc%N); (24, 0, 0x6120880305b4acc%N); (25, 0, 0x6120880305b4acc%N); (26, 0, 0x6120880305b4acc%N); (27, 0, 0x6120880305b4acc%N); (28, 0, 0x6120880305b4acc%N); (29, 0, 0x6120880305b4acc%N); (30, 0, 0x6120880305b4288%N); (31, 0, 0x6120880305b4288%N); (32, 0, 0x6120880305b4288%N); (33, 0, 0x6120880305b4008%N); (34, 0, 0x6120880305b4008%N); (35, 0, 0x6120880305b4008%N); (36, 0, 0x120880305b4008%N); (37, 0, 0x120880305b4008%N); (38, 0, 0x120880305b4008%N); (39, 0, 0x120880305b4008%N); (40, 0, 0x120880305b4008%N); (41, 0, 0x100080305a0008%N); (42, 0, 0x100080305a0008%N); (43, 0, 0x100080305a0008%N); (44, 0, 0x305a0008%N); (45, 0, 0x305a0008%N); (46, 0, 0x305a0000%N); (47, 0, 0x305a0000%N); (48, 0, 0x304a0000%N); (49, 0, 0x304a0000%N); (50, 0, 0x300a0000%N); (51, 0, 0x300a0000%N); (52, 0, 0x200a0000%N); (53, 0, 0x200a0000%N); (54, 0, 0x80000%N); (55, 0, 0x80000%N); (57, 0, 0x80000%N); (58, 0, 0x80000%N); (59, 0, 0x80000%N); (60, 0, 0x80000%N); (61, 0, 0x80000%N); (62, 0, 0x80000%N); (63, 0, 0x80000%N); (64, 0, 0x80000%N); (124, 0, 0x40608134058108005a%N); (125, 0, 0x40608134058108005a%N); (126, 0, 0x40608134058108005a%N); (132, 2, 0x4b130%N); (133, 2, 0x4b130%N); (134, 2, 0x4b130%N); (135, 2, 0x4b130%N); (136, 2, 0x4b130%N); (137, 2, 0x4b130%N); (138, 2, 0x4b130%N); (139, 2, 0x4b130%N); (147, 0, 0x40608134058108005a%N); (148, 0, 0x40608134058108005a%N)]
     [(1%N, 1); (3%N, 2); (4%N, 3); (6%N, 223); (19%N, 224); (24%N, 7); (31%N, 11); (32%N, 12); (34%N, 14); (42%N, 19); (44%N, 20); (45%N, 21); (48%N, 24); (55%N, 27); (61%N, 30); (62%N, 225); (70%N, 38); (1000%N, 58); (1001%N, 57); (1003%N, 68); (1004%N, 42); (1005%N, 56); (1006%N, 39); (1007%N, 62); (1008%N, 59); (1009%N, 48); (1010%N, 40); (1011%N, 49); (1012%N, 53); (1013%N, 54); (1014%N, 55); (1015%N, 43); (1017%N, 226); (1037%N, 153); (1042%N, 227)];
   mkst [(76, 2, 0x2100%N); (77, 0, 0x2100%N); (78, 0, 0x2100%N); (128, 0, 0xa100%N); (129, 0, 0xa100%N); (130, 0, 0x4a110%N); (131, 0, 0x4a110%N); (132, 0, 0x4a110%N); (133, 0, 0x4a110%N); (134, 0, 0x4a110%N); (135, 0, 0x4a110%N); (136, 0, 0x4a110%N); (137, 0, 0x4a110%N); (138, 0, 0x4a110%N); (139, 0, 0x4a110%N); (140, 0, 0x4a110%N); (141, 0, 0x4a110%N); (142, 0, 0x4a110%N); (143, 0, 0x100000000010%N); (144, 0, 0x100000000010%N); (145, 0, 0x100000000010%N); (146, 0, 0x100000000010%N)]
     [(4%N, 90); (6%N, 91); (44%N, 93); (1023%N, 228); (1039%N, 95); (1040%N, 96); (1041%N, 99)];
   mkst [(68, 3, 0x7ef8c5f757cd02205b%N)]
     [];
   mkst [(129, 2, 0xb120%N); (132, 1, 0x4b130%N); (133, 1, 0x4b130%N); (134, 1, 0x4b130%N); (135, 1, 0x4b130%N); (136, 1, 0x4b130%N); (137, 1, 0x4b130%N); (138, 1, 0x4b130%N); (139, 1, 0x4b130%N); (140, 1, 0x4b130%N); (141, 1, 0x4b130%N); (142, 1, 0x4b130%N)]
     [(4%N, 156); (18%N, 157)];
   mkst [(37, 1, 0x12088030db7128%N); (38, 1, 0x12088030db7128%N); (39, 1, 0x12088030db7128%N); (40, 1, 0x12088030db7128%N); (42, 3, 0x10008030da3128%N)]
     [(14%N, 118); (16%N, 119); (43%N, 120); (49%N, 121)];
   mkst [(37, 1, 0x12088030db7128%N); (38, 1, 0x12088030db7128%N); (39, 1, 0x12088030db7128%N); (40, 1, 0x12088030db7128%N); (43, 3, 0x10008030da3128%N)]
     [(14%N, 118); (16%N, 119); (43%N, 120); (49%N, 121)];
   mkst [(45, 1, 0x30da3128%N); (47, 3, 0x30da3120%N)]
     [(3%N, 89)];
   mkst [(66, 3, 0x83120%N)]
     [];
   mkst [(47, 1, 0x30da3120%N); (49, 3, 0x30ca3120%N)]
     [(20%N, 102)];
   mkst [(49, 1, 0x30ca3120%N); (51, 3, 0x308a3120%N)]
     [(22%N, 105)];
   mkst [(55, 3, 0x883120%N); (66, 1, 0x1100%N)]
     [(8%N, 103); (12%N, 229)];
   mkst [(51, 1, 0x308a3120%N); (53, 3, 0x208a3120%N)]
     [(28%N, 106)];
   mkst [(29, 3, 0x612088030db7bec%N)]
     [];
   mkst [(27, 3, 0x612088030db7bec%N)]
     [];
   mkst [(28, 3, 0x612088030db7bec%N)]
     [];
   mkst [(6, 3, 0x81073a288c32dffffc%N)]
     [];
   mkst [(7, 3, 0x81073a288c32dffffc%N); (14, 1, 0x120%N)]
     [(5%N, 230); (8%N, 231)];
   mkst [(13, 1, 0x120%N)]
     [];
   mkst [(11, 3, 0x81073a288c32dffffc%N)]
     [];
   mkst [(8, 3, 0x81073a288c32dffffc%N); (66, 1, 0x80100%N)]
     [(8%N, 103); (19%N, 232)];
   mkst [(12, 3, 0x81073a288c32dffffc%N)]
     [];
   mkst [(34, 1, 0x612088030db7128%N); (35, 1, 0x612088030db7128%N); (37, 3, 0x12088030db7128%N)]
     [(57%N, 123); (58%N, 124)];
   mkst [(34, 1, 0x612088030db7128%N); (35, 1, 0x612088030db7128%N); (38, 3, 0x12088030db7128%N)]
     [(57%N, 123); (58%N, 124)];
   mkst [(34, 1, 0x612088030db7128%N); (35, 1, 0x612088030db7128%N); (40, 3, 0x12088030db7128%N)]
     [(57%N, 123); (58%N, 124)];
   mkst [(34, 1, 0x612088030db7128%N); (35, 1, 0x612088030db7128%N); (39, 3, 0x12088030db7128%N)]
     [(57%N, 123); (58%N, 124)];
   mkst [(31, 1, 0x612088030db73a8%N); (32, 1, 0x612088030db73a8%N); (34, 3, 0x612088030db7128%N)]
     [(7%N, 87); (9%N, 88)];
   mkst [(31, 1, 0x612088030db73a8%N); (32, 1, 0x612088030db73a8%N); (35, 3, 0x612088030db7128%N)]
     [(7%N, 87); (9%N, 88)];
   mkst [(84, 0, 0x7c98849250c8003050%N); (85, 0, 0x7c98849250c8003050%N); (86, 0, 0x7c98849250c8003050%N); (87, 0, 0x7c98849250c8003050%N); (88, 0, 0x7c98849250c8003050%N); (89, 0, 0x7c98849250c8003050%N); (90, 0, 0x7c98849250c8003050%N); (91, 0, 0x7c98849250c8003050%N); (92, 0, 0x7c98849250c8003050%N); (93, 0, 0x7c98849250c8003050%N); (94, 0, 0x7c98849250c8003050%N); (95, 0, 0x7c98849250c8003050%N); (96, 0, 0x7c98849250c8003050%N); (97, 0, 0x7c98849250c8003050%N); (98, 0, 0x7c98849250c8003050%N); (99, 0, 0x7c98849250c8003050%N); (100, 0, 0x100000200000%N); (101, 0, 0x100000200000%N); (104, 1, 0x7c98848250c8800000%N); (105, 1, 0x7c98848250c8800000%N); (107, 1, 0x7c98849250c8003050%N); (108, 0, 0x7c98849250c8003050%N); (109, 0, 0x7c98849250c8003050%N); (110, 0, 0x2100%N); (111, 0, 0x2100%N); (112, 0, 0x2100%N); (113, 0, 0x2100%N); (114, 0, 0x2100%N); (115, 0, 0x7c98849250c8003050%N); (116, 0, 0x7c98849250c8003050%N); (117, 0, 0x7c98849250c8003050%N); (118, 0, 0x7c98849250c8003050%N); (119, 0, 0x7c98849250c8003050%N); (124, 0, 0x7c98849250c8003050%N); (125, 0, 0x7c98849250c8003050%N); (126, 0, 0x7c98849250c8003050%N); (128, 0, 0x3100%N); (129, 0, 0x3100%N); (130, 0, 0x43110%N); (131, 0, 0x43110%N); (132, 0, 0x43110%N); (133, 0, 0x43110%N); (134, 0, 0x43110%N); (135, 0, 0x43110%N); (136, 0, 0x43110%N); (137, 0, 0x43110%N); (138, 0, 0x43110%N); (139, 0, 0x43110%N); (140, 0, 0x43110%N); (141, 0, 0x43110%N); (142, 0, 0x43110%N); (143, 0, 0x100000000010%N); (144, 0, 0x100000000010%N); (145, 0, 0x100000000010%N); (146, 0, 0x100000000010%N)]
     [(4%N, 90); (6%N, 91); (12%N, 233); (13%N, 234); (27%N, 9); (30%N, 10); (31%N, 11); (36%N, 15); (38%N, 16); (41%N, 18); (44%N, 93); (47%N, 23); (50%N, 25); (55%N, 27); (59%N, 28); (60%N, 29); (63%N, 32); (66%N, 34); (67%N, 35); (68%N, 36); (69%N, 37); (70%N, 38); (1025%N, 77); (1026%N, 65); (1027%N, 64); (1031%N, 140); (1032%N, 237); (1033%N, 236); (1034%N, 47); (1037%N, 76); (1039%N, 235); (1040%N, 96); (1041%N, 99)];
   mkst [(102, 1, 0x7c98848250c8800000%N)]
     [];
   mkst [(84, 0, 0x7c98849250c8003050%N); (85, 0, 0x7c98849250c8003050%N); (86, 0, 0x7c98849250c8003050%N); (87, 0, 0x7c98849250c8003050%N); (88, 0, 0x7c98849250c8003050%N); (89, 0, 0x7c98849250c8003050%N); (90, 0, 0x7c98849250c8003050%N); (91, 0, 0x7c98849250c8003050%N); (92, 0, 0x7c98849250c8003050%N); (93, 0, 0x7c98849250c8003050%N); (94, 0, 0x7c98849250c8003050%N); (95, 0, 0x7c98849250c8003050%N); (96, 0, 0x7c98849250c8003050%N); (97, 0, 0x7c98849250c8003050%N); (98, 0, 0x7c98849250c8003050%N); (98, 3, 0x7ed8c4d350cc043170%N); (99, 0, 0x7c98849250c8003050%N); (100, 0, 0x100000200000%N); (101, 0, 0x100000200000%N); (103, 1, 0x7c98848250c8800000%N); (104, 0, 0x7c98848250c8800000%N); (105, 0, 0x7c98848250c8800000%N); (106, 0, 0x7c98849250c8003050%N); (107, 0, 0x7c98849250c8003050%N); (108, 0, 0x7c98849250c8003050%N); (109, 0, 0x7c98849250c8003050%N); (115, 0, 0x7c98849250c8003050%N); (116, 0, 0x7c98849250c8003050%N); (117, 0, 0x7c98849250c8003050%N); (118, 0, 0x7c98849250c8003050%N); (119, 0, 0x7c98849250c8003050%N); (124, 0, 0x7c98849250c8003050%N); (125, 0, 0x7c98849250c8003050%N); (126, 0, 0x7c98849250c8003050%N)]
     [(23%N, 238); (27%N, 9); (30%N, 10); (31%N, 11); (36%N, 15); (38%N, 16); (41%N, 18); (47%N, 23); (50%N, 25); (55%N, 27); (59%N, 28); (60%N, 29); (63%N, 32); (66%N, 34); (67%N, 35); (68%N, 36); (69%N, 37); (70%N, 38); (1025%N, 77); (1026%N, 65); (1027%N, 64); (1029%N, 239); (1030%N, 184); (1031%N, 73); (1034%N, 47); (1037%N, 76)];
   mkst [(84, 0, 0x7c98849250c8003050%N); (85, 0, 0x7c98849250c8003050%N); (86, 0, 0x7c98849250c8003050%N); (87, 0, 0x7c98849250c8003050%N); (88, 0, 0x7c98849250c8003050%N); (89, 0, 0x7c98849250c8003050%N); (90, 0, 0x7c98849250c8003050%N); (91, 0, 0x7c98849250c8003050%N); (92, 0, 0x7c98849250c8003050%N); (93, 0, 0x7c98849250c8003050%N); (94, 0, 0x7c98849250c8003050%N); (95, 0, 0x7c98849250c8003050%N); (96, 0, 0x7c98849250c8003050%N); (97, 0, 0x7c98849250c8003050%N); (97, 3, 0x7ed8c4d350cc043170%N); (98, 0, 0x7c98849250c8003050%N); (99, 0, 0x7c98849250c8003050%N); (100, 0, 0x100000200000%N); (101, 0, 0x100000200000%N); (102, 0, 0x7c98848250c8800000%N); (103, 0, 0x7c98848250c8800000%N); (104, 0, 0x7c98848250c8800000%N); (105, 0, 0x7c98848250c8800000%N); (106, 0, 0x7c98849250c8003050%N); (107, 0, 0x7c98849250c8003050%N); (108, 0, 0x7c98849250c8003050%N); (109, 0, 0x7c98849250c8003050%N); (115, 0, 0x7c98849250c8003050%N); (116, 0, 0x7c98849250c8003050%N); (117, 0, 0x7c98849250c8003050%N); (118, 0, 0x7c98849250c8003050%N); (119, 0, 0x7c98849250c8003050%N); (124, 0, 0x7c98849250c8003050%N); (125, 0, 0x7c98849250c8003050%N); (126, 0, 0x7c98849250c8003050%N)]
     [(27%N, 9); (30%N, 10); (31%N, 11); (36%N, 15); (38%N, 16); (41%N, 18); (47%N, 23); (50%N, 25); (55%N, 27); (59%N, 28); (60%N, 29); (63%N, 32); (66%N, 34); (67%N, 35); (68%N, 36); (69%N, 37); (70%N, 38); (1025%N, 77); (1026%N, 65); (1027%N, 64); (1028%N, 240); (1029%N, 185); (1030%N, 184); (1031%N, 73); (1034%N, 47); (1037%N, 76)];
   mkst [(58, 3, 0x883120%N)]
     [];
   mkst [(59, 3, 0x883120%N)]
     [];
   mkst [(61, 3, 0x883120%N)]
     [];
   mkst [(62, 3, 0x883120%N)]
     [];
   mkst [(63, 3, 0x883120%N)]
     [];
   mkst [(60, 3, 0x883120%N)]
     [];
   mkst [(64, 3, 0x883120%N)]
     [];
   mkst [(170, 2, 0x40130%N)]
     [];
   mkst [(163, 2, 0x40130%N)]
     [(5%N, 241)];
   mkst [(70, 1, 0x7ed8c4d350cc040170%N); (71, 0, 0x7ed8c4d350cc040170%N); (72, 0, 0x7ed8c4d350cc040170%N); (73, 0, 0x7ed8c4d350cc040170%N); (74, 0, 0x7ed8c4d350cc040170%N); (79, 0, 0x7ed8c4d350cc040170%N); (80, 0, 0x7ed8c4d350cc040170%N); (81, 0, 0x7ed8c4d350cc040170%N); (82, 0, 0x7ed8c4d350cc040170%N); (83, 0, 0x7ed8c4d350cc040170%N); (84, 0, 0x7ed8c4d350cc040170%N); (85, 0, 0x7ed8c4d350cc040170%N); (86, 0, 0x7ed8c4d350cc040170%N); (87, 0, 0x7ed8c4d350cc040170%N); (88, 0, 0x7ed8c4d350cc040170%N); (89, 0, 0x7ed8c4d350cc040170%N); (90, 0, 0x7ed8c4d350cc040170%N); (91, 0, 0x7ed8c4d350cc040170%N); (92, 0, 0x7ed8c4d350cc040170%N); (93, 0, 0x7ed8c4d350cc040170%N); (94, 0, 0x7ed8c4d350cc040170%N); (95, 0, 0x7ed8c4d350cc040170%N); (96, 0, 0x7ed8c4d350cc040170%N); (97, 0, 0x7ed8c4d350cc040170%N); (98, 0, 0x7ed8c4d350cc040170%N); (99, 0, 0x7ed8c4d350cc040170%N); (100, 0, 0x100000200000%N); (101, 0, 0x100000200000%N); (115, 0, 0x7ed8c4d350cc040170%N); (116, 0, 0x7ed8c4d350cc040170%N); (117, 0, 0x7ed8c4d350cc040170%N); (118, 0, 0x7ed8c4d350cc040170%N); (119, 0, 0x7ed8c4d350cc040170%N); (124, 0, 0x7ed8c4d350cc040170%N); (125, 0, 0x7ed8c4d350cc040170%N); (126, 0, 0x7ed8c4d350cc040170%N); (127, 0, 0x7ed8c4d350cc040170%N); (128, 0, 0x120%N); (129, 0, 0x120%N); (130, 0, 0x40130%N); (131, 0, 0x40130%N); (132, 0, 0x40130%N); (133, 0, 0x40130%N); (134, 0, 0x40130%N); (135, 0, 0x40130%N); (136, 0, 0x40130%N); (137, 0, 0x40130%N); (138, 0, 0x40130%N); (139, 0, 0x40130%N); (140, 0, 0x40130%N); (141, 0, 0x40130%N); (142, 0, 0x40130%N); (143, 0, 0x100000040130%N); (144, 0, 0x100000040130%N); (145, 0, 0x100000040130%N); (146, 0, 0x100000040130%N); (153, 1, 0x120%N); (154, 1, 0x120%N); (155, 1, 0x120%N); (160, 0, 0x120%N); (161, 0, 0x120%N); (162, 0, 0x120%N); (163, 0, 0x40130%N); (164, 0, 0x40130%N); (165, 0, 0x40130%N); (166, 0, 0x40130%N); (167, 0, 0x40130%N); (168, 0, 0x40130%N); (169, 0, 0x40130%N); (170, 0, 0x40130%N); (171, 0, 0x40130%N); (172, 0, 0x40130%N); (173, 0, 0x40130%N)]
     [(4%N, 242); (6%N, 91); (18%N, 136); (26%N, 8); (27%N, 9); (30%N, 10); (31%N, 11); (36%N, 15); (38%N, 16); (40%N, 17); (41%N, 18); (44%N, 93); (46%N, 22); (47%N, 23); (50%N, 25); (54%N, 26); (55%N, 27); (59%N, 28); (60%N, 29); (62%N, 31); (63%N, 32); (65%N, 33); (66%N, 34); (67%N, 35); (68%N, 36); (69%N, 37); (70%N, 38); (1021%N, 94); (1024%N, 63); (1025%N, 67); (1026%N, 65); (1027%N, 64); (1034%N, 47); (1037%N, 66); (1038%N, 52); (1039%N, 244); (1040%N, 96); (1041%N, 245); (1048%N, 243); (1049%N, 138)];
   mkst [(151, 1, 0x120%N)]
     [];
   mkst [(149, 1, 0x20%N); (150, 1, 0x20%N); (152, 1, 0x120%N)]
     [(8%N, 246)];
   mkst [(171, 2, 0x40130%N)]
     [(5%N, 247)];
   mkst [(0, 0, 0x81073a288c325fcedc%N); (1, 0, 0x81073a288c325fcedc%N); (2, 0, 0x81073a288c325fcedc%N); (3, 0, 0x81073a288c325fcedc%N); (4, 0, 0x81073a288c325fcedc%N); (5, 0, 0x81073a288c325fcedc%N); (6, 0, 0x81073a288c325fcedc%N); (7, 0, 0x81073a288c325fcedc%N); (8, 0, 0x81073a288c325fcedc%N); (9, 0, 0x81073a288c325fcedc%N); (10, 0, 0x81073a288c325fcedc%N); (11, 0, 0x81073a288c325fcedc%N); (12, 0, 0x81073a288c325fcedc%N); (15, 0, 0x81071a0888325bcacc%N); (16, 0, 0x81071a0888325bcacc%N); (17, 0, 0x81071a0888325bcacc%N); (18, 0, 0x81071a0888325bcacc%N); (19, 0, 0x81071a0888325bcacc%N); (20, 0, 0x81071a0888325bcacc%N); (20, 1, 0x81071a0888325bcacc%N); (21, 0, 0x81071a0888325bcacc%N); (22, 0, 0x81071a0888325bcacc%N); (23, 0, 0x81071a0888325bcacc%N); (168, 2, 0x40130%N)]
     [(1%N, 1); (3%N, 2); (4%N, 69); (6%N, 4); (19%N, 248); (24%N, 7); (32%N, 12); (34%N, 14); (42%N, 19); (44%N, 20); (45%N, 21); (48%N, 24); (61%N, 30); (1000%N, 58); (1001%N, 57); (1003%N, 78)];
   mkst [(164, 2, 0x40130%N)]
     [];
   mkst [(165, 2, 0x40130%N)]
     [(19%N, 249)];
   mkst [(69, 0, 0x7ed8c4d350cc040170%N); (70, 0, 0x7ed8c4d350cc040170%N); (71, 0, 0x7ed8c4d350cc040170%N); (72, 0, 0x7ed8c4d350cc040170%N); (73, 0, 0x7ed8c4d350cc040170%N); (74, 0, 0x7ed8c4d350cc040170%N); (79, 0, 0x7ed8c4d350cc040170%N); (80, 0, 0x7ed8c4d350cc040170%N); (81, 0, 0x7ed8c4d350cc040170%N); (82, 0, 0x7ed8c4d350cc040170%N); (83, 0, 0x7ed8c4d350cc040170%N); (84, 0, 0x7ed8c4d350cc040170%N); (85, 0, 0x7ed8c4d350cc040170%N); (86, 0, 0x7ed8c4d350cc040170%N); (87, 0, 0x7ed8c4d350cc040170%N); (88, 0, 0x7ed8c4d350cc040170%N); (89, 0, 0x7ed8c4d350cc040170%N); (90, 0, 0x7ed8c4d350cc040170%N); (91, 0, 0x7ed8c4d350cc040170%N); (92, 0, 0x7ed8c4d350cc040170%N); (93, 0, 0x7ed8c4d350cc040170%N); (94, 0, 0x7ed8c4d350cc040170%N); (95, 0, 0x7ed8c4d350cc040170%N); (96, 0, 0x7ed8c4d350cc040170%N); (97, 0, 0x7ed8c4d350cc040170%N); (98, 0, 0x7ed8c4d350cc040170%N); (99, 0, 0x7ed8c4d350cc040170%N); (100, 0, 0x100000200000%N); (101, 0, 0x100000200000%N); (115, 0, 0x7ed8c4d350cc040170%N); (116, 0, 0x7ed8c4d350cc040170%N); (117, 0, 0x7ed8c4d350cc040170%N); (118, 0, 0x7ed8c4d350cc040170%N); (119, 0, 0x7ed8c4d350cc040170%N); (124, 0, 0x7ed8c4d350cc040170%N); (125, 0, 0x7ed8c4d350cc040170%N); (126, 0, 0x7ed8c4d350cc040170%N); (127, 0, 0x7ed8c4d350cc040170%N); (149, 0, 0x20%N); (150, 0, 0x20%N); (151, 0, 0x120%N); (152, 0, 0x120%N); (153, 0, 0x120%N); (154, 0, 0x120%N); (155, 0, 0x120%N); (172, 2, 0x40130%N); (173, 2, 0x40130%N)]
     [(5%N, 250); (26%N, 8); (27%N, 9); (30%N, 10); (31%N, 11); (36%N, 15); (38%N, 16); (40%N, 17); (41%N, 18); (46%N, 22); (47%N, 23); (50%N, 25); (54%N, 26); (55%N, 27); (59%N, 28); (60%N, 29); (62%N, 31); (63%N, 32); (65%N, 33); (66%N, 34); (67%N, 35); (68%N, 36); (69%N, 37); (70%N, 38); (1020%N, 197); (1021%N, 45); (1024%N, 63); (1025%N, 67); (1026%N, 65); (1027%N, 64); (1034%N, 47); (1037%N, 66); (1038%N, 52); (1043%N, 251); (1044%N, 199); (1045%N, 198)];
   mkst [(0, 0, 0x81073a288c325fcedc%N); (1, 0, 0x81073a288c325fcedc%N); (2, 0, 0x81073a288c325fcedc%N); (3, 0, 0x81073a288c325fcedc%N); (4, 0, 0x81073a288c325fcedc%N); (5, 0, 0x81073a288c325fcedc%N); (6, 0, 0x81073a288c325fcedc%N); (7, 0, 0x81073a288c325fcedc%N); (8, 0, 0x81073a288c325fcedc%N); (9, 0, 0x81073a288c325fcedc%N); (10, 0, 0x81073a288c325fcedc%N); (11, 0, 0x81073a288c325fcedc%N); (12, 0, 0x81073a288c325fcedc%N); (15, 0, 0x81071a0888325bcacc%N); (16, 0, 0x81071a0888325bcacc%N); (17, 0, 0x81071a0888325bcacc%N); (18, 0, 0x81071a0888325bcacc%N); (19, 0, 0x81071a0888325bcacc%N); (20, 0, 0x81071a0888325bcacc%N); (21, 0, 0x81071a0888325bcacc%N); (22, 0, 0x81071a0888325bcacc%N); (23, 0, 0x81071a0888325bcacc%N); (24, 0, 0x6120880305b4acc%N); (25, 0, 0x6120880305b4acc%N); (26, 0, 0x6120880305b4acc%N); (27, 0, 0x6120880305b4acc%N); (28, 0, 0x6120880305b4acc%N); (29, 0, 0x6120880305b4acc%N); (30, 0, 0x6120880305b4288%N); (31, 0, 0x6120880305b4288%N); (32, 0, 0x6120880305b4288%N); (33, 0, 0x6120880305b4008%N); (34, 0, 0x6120880305b4008%N); (35, 0, 0x6120880305b4008%N); (36, 0, 0x120880305b4008%N); (37, 0, 0x120880305b4008%N); (38, 0, 0x120880305b4008%N); (39, 0, 0x120880305b4008%N); (40, 0, 0x120880305b4008%N); (41, 0, 0x100080305a0008%N); (42, 0, 0x100080305a0008%N); (43, 0, 0x100080305a0008%N); (44, 0, 0x305a0008%N); (45, 0, 0x305a0008%N); (46, 0, 0x305a0000%N); (47, 0, 0x305a0000%N); (48, 0, 0x304a0000%N); (49, 0, 0x304a0000%N); (50, 0, 0x300a0000%N); (51, 0, 0x300a0000%N); (52, 0, 0x200a0000%N); (53, 0, 0x200a0000%N); (54, 0, 0x80000%N); (55, 0, 0x80000%N); (57, 0, 0x80000%N); (58, 0, 0x80000%N); (59, 0, 0x80000%N); (60, 0, 0x80000%N); (61, 0, 0x80000%N); (62, 0, 0x80000%N); (63, 0, 0x80000%N); (64, 0, 0x80000%N); (166, 2, 0x40130%N); (167, 2, 0x40130%N); (169, 2, 0x40130%N)]
     [(1%N, 1); (3%N, 2); (4%N, 3); (6%N, 252); (19%N, 253); (24%N, 7); (32%N, 12); (34%N, 14); (42%N, 19); (44%N, 20); (45%N, 21); (48%N, 24); (61%N, 30); (1000%N, 58); (1001%N, 57); (1003%N, 68); (1004%N, 42); (1005%N, 56); (1006%N, 39); (1007%N, 62); (1008%N, 59); (1009%N, 48); (1010%N, 40); (1011%N, 49); (1012%N, 53); (1013%N, 54); (1014%N, 55); (1015%N, 43); (1017%N, 254)];
   mkst [(162, 2, 0x120%N); (166, 1, 0x40130%N); (167, 1, 0x40130%N); (169, 1, 0x40130%N); (172, 1, 0x40130%N); (173, 1, 0x40130%N)]
     [(4%N, 204); (18%N, 205)];
   mkst [(25, 4, 0x612088030db7bec%N)]
     [];
   mkst [(0, 0, 0x632288430d74fdc%N); (1, 0, 0x632288430d74fdc%N); (2, 0, 0x632288430d74fdc%N); (3, 0, 0x632288430d74fdc%N); (4, 0, 0x632288430d74fdc%N); (5, 0, 0x632288430d74fdc%N); (6, 0, 0x632288430d74fdc%N); (7, 0, 0x632288430d74fdc%N); (8, 0, 0x632288430d74fdc%N); (9, 0, 0x632288430d74fdc%N); (10, 0, 0x632288430d74fdc%N); (11, 0, 0x632288430d74fdc%N); (12, 0, 0x632288430d74fdc%N); (15, 0, 0x612088030d34bcc%N); (16, 0, 0x612088030d34bcc%N); (17, 0, 0x612088030d34bcc%N); (18, 0, 0x612088030d34bcc%N); (19, 0, 0x612088030d34bcc%N); (20, 0, 0x612088030d34bcc%N); (21, 0, 0x612088030d34bcc%N); (22, 0, 0x612088030d34bcc%N); (23, 0, 0x612088030d34bcc%N); (24, 0, 0x612088030d34bcc%N); (25, 0, 0x612088030d34bcc%N); (26, 0, 0x612088030d34bcc%N); (27, 0, 0x612088030d34bcc%N); (28, 0, 0x612088030d34bcc%N); (29, 0, 0x612088030d34bcc%N); (30, 0, 0x612088030d34388%N); (31, 0, 0x612088030d34388%N); (32, 0, 0x612088030d34388%N); (33, 0, 0x612088030d34108%N); (34, 0, 0x612088030d34108%N); (35, 0, 0x612088030d34108%N); (36, 0, 0x12088030d34108%N); (37, 0, 0x12088030d34108%N); (38, 0, 0x12088030d34108%N); (39, 0, 0x12088030d34108%N); (40, 0, 0x12088030d34108%N); (41, 0, 0x10008030d20108%N); (42, 0, 0x10008030d20108%N); (43, 0, 0x10008030d20108%N); (44, 0, 0x30d20108%N); (45, 0, 0x30d20108%N); (46, 0, 0x30d20100%N); (47, 0, 0x30d20100%N); (48, 0, 0x30c20100%N); (49, 0, 0x30c20100%N); (50, 0, 0x30820100%N); (51, 0, 0x30820100%N); (52, 0, 0x20820100%N); (53, 0, 0x20820100%N); (54, 0, 0x800100%N); (55, 0, 0x800100%N); (56, 0, 0x800100%N); (123, 2, 0x800100%N)]
     [(1%N, 1); (3%N, 2); (4%N, 3); (6%N, 4); (24%N, 7); (32%N, 12); (34%N, 14); (42%N, 19); (44%N, 20); (45%N, 21); (48%N, 24); (61%N, 30); (1000%N, 58); (1001%N, 57); (1003%N, 148); (1004%N, 42); (1005%N, 56); (1006%N, 39); (1007%N, 62); (1008%N, 59); (1009%N, 48); (1010%N, 40); (1011%N, 49); (1012%N, 53); (1013%N, 54); (1014%N, 55); (1015%N, 255); (1016%N, 256)];
   mkst [(117, 4, 0x7ed8c4d350cc043170%N); (121, 2, 0x800100%N); (122, 0, 0x800100%N); (123, 0, 0x800100%N)]
     [(23%N, 257); (44%N, 142); (1036%N, 258)];
   mkst [(115, 4, 0x7ed8c4d350cc043170%N)]
     [];
   mkst [(116, 4, 0x7ed8c4d350cc043170%N); (118, 4, 0x7ed8c4d350cc043170%N); (121, 1, 0x800100%N)]
     [(8%N, 259); (23%N, 260)];
   mkst [(23, 4, 0x81071a088832dbfbec%N)]
     [];
   mkst [(131, 3, 0x4b130%N)]
     [];
   mkst [(146, 3, 0x100000040130%N)]
     [];
   mkst [(148, 2, 0x4060813405810c017a%N)]
     [];
   mkst [(0, 0, 0x81073a288c32d7cfdc%N); (1, 0, 0x81073a288c32d7cfdc%N); (2, 0, 0x81073a288c32d7cfdc%N); (3, 0, 0x81073a288c32d7cfdc%N); (4, 0, 0x81073a288c32d7cfdc%N); (5, 0, 0x81073a288c32d7cfdc%N); (6, 0, 0x81073a288c32d7cfdc%N); (7, 0, 0x81073a288c32d7cfdc%N); (8, 0, 0x81073a288c32d7cfdc%N); (9, 0, 0x81073a288c32d7cfdc%N); (10, 0, 0x81073a288c32d7cfdc%N); (11, 0, 0x81073a288c32d7cfdc%N); (12, 0, 0x81073a288c32d7cfdc%N); (15, 0, 0x81071a088832d3cbcc%N); (16, 0, 0x81071a088832d3cbcc%N); (17, 0, 0x81071a088832d3cbcc%N); (18, 0, 0x81071a088832d3cbcc%N); (19, 0, 0x81071a088832d3cbcc%N); (20, 0, 0x81071a088832d3cbcc%N); (21, 0, 0x81071a088832d3cbcc%N); (22, 0, 0x81071a088832d3cbcc%N); (23, 0, 0x81071a088832d3cbcc%N); (24, 0, 0x612088030d34bcc%N); (25, 0, 0x612088030d34bcc%N); (26, 0, 0x612088030d34bcc%N); (27, 0, 0x612088030d34bcc%N); (28, 0, 0x612088030d34bcc%N); (29, 0, 0x612088030d34bcc%N); (30, 0, 0x612088030d34388%N); (31, 0, 0x612088030d34388%N); (32, 0, 0x612088030d34388%N); (33, 0, 0x612088030d34108%N); (34, 0, 0x612088030d34108%N); (35, 0, 0x612088030d34108%N); (36, 0, 0x12088030d34108%N); (37, 0, 0x12088030d34108%N); (38, 0, 0x12088030d34108%N); (39, 0, 0x12088030d34108%N); (40, 0, 0x12088030d34108%N); (41, 0, 0x10008030d20108%N); (42, 0, 0x10008030d20108%N); (43, 0, 0x10008030d20108%N); (44, 0, 0x30d20108%N); (45, 0, 0x30d20108%N); (46, 0, 0x30d20100%N); (47, 0, 0x30d20100%N); (48, 0, 0x30c20100%N); (49, 0, 0x30c20100%N); (50, 0, 0x30820100%N); (51, 0, 0x30820100%N); (52, 0, 0x20820100%N); (53, 0, 0x20820100%N); (54, 0, 0x800100%N); (55, 0, 0x800100%N); (57, 0, 0x800100%N); (58, 0, 0x800100%N); (59, 0, 0x800100%N); (60, 0, 0x800100%N); (61, 0, 0x800100%N); (62, 0, 0x800100%N); (63, 0, 0x800100%N); (64, 0, 0x800100%N); (174, 0, 0x800100%N); (175, 0, 0x800100%N); (175, 1, 0x802100%N); (176, 0, 0x800100%N); (176, 1, 0x802100%N); (177, 0, 0x800100%N); (178, 0, 0x800100%N); (179, 0, 0x800100%N); (180, 0, 0x800100%N); (181, 0, 0x200134050120005a%N); (182, 0, 0x48400%N); (183, 0, 0x48400%N); (184, 0, 0x48400%N); (185, 0, 0x48400%N)]
     [(1%N, 1); (3%N, 2); (4%N, 3); (6%N, 4); (10%N, 261); (18%N, 262); (21%N, 216); (24%N, 7); (32%N, 12); (34%N, 14); (42%N, 19); (44%N, 20); (45%N, 21); (48%N, 24); (61%N, 30); (1000%N, 58); (1001%N, 57); (1003%N, 68); (1004%N, 42); (1005%N, 56); (1006%N, 39); (1007%N, 62); (1008%N, 59); (1009%N, 48); (1010%N, 40); (1011%N, 49); (1012%N, 53); (1013%N, 54); (1014%N, 55); (1015%N, 43); (1017%N, 217); (1050%N, 266); (1051%N, 267); (1052%N, 263); (1053%N, 265); (1054%N, 264)];
   mkst [(174, 1, 0x802100%N)]
     [];
   mkst [(78, 3, 0x2100%N)]
     [];
   mkst [(142, 3, 0x4b130%N)]
     [];
   mkst [(156, 1, 0x120%N)]
     [];
   mkst [(141, 3, 0x4b130%N); (157, 1, 0x120%N)]
     [(5%N, 268); (8%N, 269)];
   mkst [(140, 3, 0x4b130%N)]
     [(5%N, 270)];
   mkst [(0, 0, 0x81073a288c325fcedc%N); (1, 0, 0x81073a288c325fcedc%N); (2, 0, 0x81073a288c325fcedc%N); (3, 0, 0x81073a288c325fcedc%N); (4, 0, 0x81073a288c325fcedc%N); (5, 0, 0x81073a288c325fcedc%N); (6, 0, 0x81073a288c325fcedc%N); (7, 0, 0x81073a288c325fcedc%N); (8, 0, 0x81073a288c325fcedc%N); (9, 0, 0x81073a288c325fcedc%N); (10, 0, 0x81073a288c325fcedc%N); (11, 0, 0x81073a288c325fcedc%N); (12, 0, 0x81073a288c325fcedc%N); (15, 0, 0x81071a0888325bcacc%N); (16, 0, 0x81071a0888325bcacc%N); (17, 0, 0x81071a0888325bcacc%N); (18, 0, 0x81071a0888325bcacc%N); (19, 0, 0x81071a0888325bcacc%N); (20, 0, 0x81071a0888325bcacc%N); (20, 1, 0x81071a0888325bcacc%N); (21, 0, 0x81071a0888325bcacc%N); (22, 0, 0x81071a0888325bcacc%N); (23, 0, 0x81071a0888325bcacc%N); (138, 3, 0x4b130%N)]
     [(1%N, 1); (3%N, 2); (4%N, 69); (6%N, 4); (19%N, 271); (24%N, 7); (32%N, 12); (34%N, 14); (42%N, 19); (44%N, 20); (45%N, 21); (48%N, 24); (61%N, 30); (1000%N, 58); (1001%N, 57); (1003%N, 78)];
   mkst [(139, 3, 0x4b130%N)]
     [];
   mkst [(124, 0, 0x40208134058100005a%N); (125, 0, 0x40208134058100005a%N); (126, 0, 0x40208134058100005a%N); (135, 3, 0x4b130%N); (147, 0, 0x40208134058100005a%N); (148, 0, 0x40208134058100005a%N)]
     [(31%N, 11); (55%N, 27); (70%N, 38); (1037%N, 153); (1042%N, 272)];
   mkst [(134, 3, 0x4b130%N)]
     [(19%N, 273)];
   mkst [(0, 0, 0x81073a288c325fcedc%N); (1, 0, 0x81073a288c325fcedc%N); (2, 0, 0x81073a288c325fcedc%N); (3, 0, 0x81073a288c325fcedc%N); (4, 0, 0x81073a288c325fcedc%N); (5, 0, 0x81073a288c325fcedc%N); (6, 0, 0x81073a288c325fcedc%N); (7, 0, 0x81073a288c325fcedc%N); (8, 0, 0x81073a288c325fcedc%N); (9, 0, 0x81073a288c325fcedc%N); (10, 0, 0x81073a288c325fcedc%N); (11, 0, 0x81073a288c325fcedc%N); (12, 0, 0x81073a288c325fcedc%N); (15, 0, 0x81071a0888325bcacc%N); (16, 0, 0x81071a0888325bcacc%N); (17, 0, 0x81071a0888325bcacc%N); (18, 0, 0x81071a0888325bcacc%N); (19, 0, 0x81071a0888325bcacc%N); (20, 0, 0x81071a0888325bcacc%N); (21, 0, 0x81071a0888325bcacc%N); (22, 0, 0x81071a0888325bcacc%N); (23, 0, 0x81071a0888325bcacc%N); (24, 0, 0x6120880305b4acc%N); (25, 0, 0x6120880305b4acc%N); (26, 0, 0x6120880305b4acc%N); (27, 0, 0x6120880305b4acc%N); (28, 0, 0x6120880305b4acc%N); (29, 0, 0x6120880305b4acc%N); (30, 0, 0x6120880305b4288%N); (31, 0, 0x6120880305b4288%N); (32, 0, 0x6120880305b4288%N); (33, 0, 0x6120880305b4008%N); (34, 0, 0x6120880305b4008%N); (35, 0, 0x6120880305b4008%N); (36, 0, 0x120880305b4008%N); (37, 0, 0x120880305b4008%N); (38, 0, 0x120880305b4008%N); (39, 0, 0x120880305b4008%N); (40, 0, 0x120880305b4008%N); (41, 0, 0x100080305a0008%N); (42, 0, 0x100080305a0008%N); (43, 0, 0x100080305a0008%N); (44, 0, 0x305a0008%N); (45, 0, 0x305a0008%N); (46, 0, 0x305a0000%N); (47, 0, 0x305a0000%N); (48, 0, 0x304a0000%N); (49, 0, 0x304a0000%N); (50, 0, 0x300a0000%N); (51, 0, 0x300a0000%N); (52, 0, 0x200a0000%N); (53, 0, 0x200a0000%N); (54, 0, 0x80000%N); (55, 0, 0x80000%N); (57, 0, 0x80000%N); (58, 0, 0x80000%N); (59, 0, 0x80000%N); (60, 0, 0x80000%N); (61, 0, 0x80000%N); (62, 0, 0x80000%N); (63, 0, 0x80000%N); (64, 0, 0x80000%N); (124, 0, 0x40608134058108005a%N); (125, 0, 0x40608134058108005a%N); (126, 0, 0x40608134058108005a%N); (132, 3, 0x4b130%N); (133, 3, 0x4b130%N); (136, 3, 0x4b130%N); (137, 3, 0x4b130%N); (148, 1, 0x40608134058108005a%N)]
     [(1%N, 1); (3%N, 2); (4%N, 3); (6%N, 274); (19%N, 275); (24%N, 7); (31%N, 11); (32%N, 12); (34%N, 14); (42%N, 19); (44%N, 20); (45%N, 21); (48%N, 24); (55%N, 27); (61%N, 30); (62%N, 276); (70%N, 38); (1000%N, 58); (1001%N, 57); (1003%N, 68); (1004%N, 42); (1005%N, 56); (1006%N, 39); (1007%N, 62); (1008%N, 59); (1009%N, 48); (1010%N, 40); (1011%N, 49); (1012%N, 53); (1013%N, 54); (1014%N, 55); (1015%N, 43); (1017%N, 277); (1037%N, 215)];
   mkst [(76, 3, 0x2100%N)]
     [];
   mkst [(0, 0, 0x632288430df7ffc%N); (1, 0, 0x632288430df7ffc%N); (2, 0, 0x632288430df7ffc%N); (3, 0, 0x632288430df7ffc%N); (4, 0, 0x632288430df7ffc%N); (5, 0, 0x632288430df7ffc%N); (6, 0, 0x632288430df7ffc%N); (7, 0, 0x632288430df7ffc%N); (8, 0, 0x632288430df7ffc%N); (9, 0, 0x632288430df7ffc%N); (10, 0, 0x632288430df7ffc%N); (11, 0, 0x632288430df7ffc%N); (12, 0, 0x632288430df7ffc%N); (15, 0, 0x612088030db7bec%N); (16, 0, 0x612088030db7bec%N); (17, 0, 0x612088030db7bec%N); (18, 0, 0x612088030db7bec%N); (19, 0, 0x612088030db7bec%N); (20, 0, 0x612088030db7bec%N); (21, 0, 0x612088030db7bec%N); (22, 0, 0x612088030db7bec%N); (23, 0, 0x612088030db7bec%N); (24, 0, 0x612088030db7bec%N); (25, 0, 0x612088030db7bec%N); (26, 0, 0x612088030db7bec%N); (27, 0, 0x612088030db7bec%N); (28, 0, 0x612088030db7bec%N); (29, 0, 0x612088030db7bec%N); (30, 0, 0x612088030db73a8%N); (31, 0, 0x612088030db73a8%N); (32, 0, 0x612088030db73a8%N); (33, 0, 0x612088030db7128%N); (34, 0, 0x612088030db7128%N); (35, 0, 0x612088030db7128%N); (36, 0, 0x12088030db7128%N); (37, 0, 0x12088030db7128%N); (38, 0, 0x12088030db7128%N); (39, 0, 0x12088030db7128%N); (40, 0, 0x12088030db7128%N); (41, 0, 0x10008030da3128%N); (42, 0, 0x10008030da3128%N); (43, 0, 0x10008030da3128%N); (44, 0, 0x30da3128%N); (45, 0, 0x30da3128%N); (46, 0, 0x30da3120%N); (47, 0, 0x30da3120%N); (48, 0, 0x30ca3120%N); (49, 0, 0x30ca3120%N); (50, 0, 0x308a3120%N); (51, 0, 0x308a3120%N); (52, 0, 0x208a3120%N); (53, 0, 0x208a3120%N); (54, 0, 0x883120%N); (55, 0, 0x883120%N); (55, 4, 0x883120%N)]
     [(1%N, 1); (3%N, 2); (4%N, 3); (6%N, 4); (24%N, 7); (32%N, 12); (34%N, 14); (42%N, 19); (44%N, 20); (45%N, 21); (48%N, 24); (61%N, 30); (1000%N, 58); (1001%N, 57); (1003%N, 148); (1004%N, 42); (1005%N, 56); (1006%N, 39); (1007%N, 62); (1008%N, 59); (1009%N, 48); (1010%N, 40); (1011%N, 49); (1012%N, 53); (1013%N, 54); (1014%N, 55); (1015%N, 278)];
   mkst [(7, 4, 0x81073a288c32dffffc%N)]
     [];
   mkst [(0, 0, 0x81073a288c3257cffc%N); (1, 0, 0x81073a288c3257cffc%N); (2, 0, 0x81073a288c3257cffc%N); (3, 0, 0x81073a288c3257cffc%N); (4, 0, 0x81073a288c3257cffc%N); (5, 0, 0x81073a288c3257cffc%N); (6, 0, 0x81073a288c3257cffc%N); (7, 0, 0x81073a288c3257cffc%N); (8, 0, 0x81073a288c3257cffc%N); (9, 0, 0x81073a288c3257cffc%N); (10, 0, 0x81073a288c3257cffc%N); (11, 0, 0x81073a288c3257cffc%N); (12, 0, 0x81073a288c3257cffc%N); (14, 2, 0x120%N); (15, 0, 0x81071a08883253cbec%N); (16, 0, 0x81071a08883253cbec%N); (17, 0, 0x81071a08883253cbec%N); (18, 0, 0x81071a08883253cbec%N); (19, 0, 0x81071a08883253cbec%N); (20, 0, 0x81071a08883253cbec%N); (21, 0, 0x81071a08883253cbec%N); (22, 0, 0x81071a08883253cbec%N); (23, 0, 0x81071a08883253cbec%N); (24, 0, 0x612088030534bec%N); (25, 0, 0x612088030534bec%N); (26, 0, 0x612088030534bec%N); (27, 0, 0x612088030534bec%N); (28, 0, 0x612088030534bec%N); (29, 0, 0x612088030534bec%N); (30, 0, 0x6120880305343a8%N); (31, 0, 0x6120880305343a8%N); (32, 0, 0x6120880305343a8%N); (33, 0, 0x612088030534128%N); (34, 0, 0x612088030534128%N); (35, 0, 0x612088030534128%N); (36, 0, 0x12088030534128%N); (37, 0, 0x12088030534128%N); (38, 0, 0x12088030534128%N); (39, 0, 0x12088030534128%N); (40, 0, 0x12088030534128%N); (41, 0, 0x10008030520128%N); (42, 0, 0x10008030520128%N); (43, 0, 0x10008030520128%N); (44, 0, 0x30520128%N); (45, 0, 0x30520128%N); (46, 0, 0x30520120%N); (47, 0, 0x30520120%N); (48, 0, 0x30420120%N); (49, 0, 0x30420120%N); (50, 0, 0x30020120%N); (51, 0, 0x30020120%N); (52, 0, 0x20020120%N); (53, 0, 0x20020120%N); (54, 0, 0x120%N); (55, 0, 0x120%N); (57, 0, 0x120%N); (58, 0, 0x120%N); (59, 0, 0x120%N); (60, 0, 0x120%N); (61, 0, 0x120%N); (62, 0, 0x120%N); (63, 0, 0x120%N); (64, 0, 0x120%N)]
     [(1%N, 1); (3%N, 2); (4%N, 3); (6%N, 4); (24%N, 7); (32%N, 12); (34%N, 14); (42%N, 19); (44%N, 20); (45%N, 21); (48%N, 24); (61%N, 30); (1000%N, 58); (1001%N, 57); (1003%N, 68); (1004%N, 42); (1005%N, 56); (1006%N, 39); (1007%N, 62); (1008%N, 59); (1009%N, 48); (1010%N, 40); (1011%N, 49); (1012%N, 53); (1013%N, 54); (1014%N, 55); (1015%N, 43); (1017%N, 279)];
   mkst [(8, 4, 0x81073a288c32dffffc%N)]
     [];
   mkst [(0, 0, 0x632288430576fdc%N); (1, 0, 0x632288430576fdc%N); (2, 0, 0x632288430576fdc%N); (3, 0, 0x632288430576fdc%N); (4, 0, 0x632288430576fdc%N); (5, 0, 0x632288430576fdc%N); (6, 0, 0x632288430576fdc%N); (7, 0, 0x632288430576fdc%N); (8, 0, 0x632288430576fdc%N); (9, 0, 0x632288430576fdc%N); (10, 0, 0x632288430576fdc%N); (11, 0, 0x632288430576fdc%N); (12, 0, 0x632288430576fdc%N); (15, 0, 0x612088030536bcc%N); (16, 0, 0x612088030536bcc%N); (17, 0, 0x612088030536bcc%N); (18, 0, 0x612088030536bcc%N); (19, 0, 0x612088030536bcc%N); (20, 0, 0x612088030536bcc%N); (21, 0, 0x612088030536bcc%N); (22, 0, 0x612088030536bcc%N); (23, 0, 0x612088030536bcc%N); (24, 0, 0x612088030536bcc%N); (25, 0, 0x612088030536bcc%N); (26, 0, 0x612088030536bcc%N); (27, 0, 0x612088030536bcc%N); (28, 0, 0x612088030536bcc%N); (29, 0, 0x612088030536bcc%N); (30, 0, 0x612088030536388%N); (31, 0, 0x612088030536388%N); (32, 0, 0x612088030536388%N); (33, 0, 0x612088030536108%N); (34, 0, 0x612088030536108%N); (35, 0, 0x612088030536108%N); (36, 0, 0x12088030536108%N); (37, 0, 0x12088030536108%N); (38, 0, 0x12088030536108%N); (39, 0, 0x12088030536108%N); (40, 0, 0x12088030536108%N); (41, 0, 0x10008030522108%N); (42, 0, 0x10008030522108%N); (43, 0, 0x10008030522108%N); (44, 0, 0x30522108%N); (45, 0, 0x30522108%N); (46, 0, 0x30522100%N); (47, 0, 0x30522100%N); (48, 0, 0x30422100%N); (49, 0, 0x30422100%N); (50, 0, 0x30022100%N); (51, 0, 0x30022100%N); (52, 0, 0x20022100%N); (53, 0, 0x20022100%N); (54, 0, 0x2100%N); (55, 0, 0x2100%N); (56, 0, 0x2100%N); (113, 1, 0x2100%N)]
     [(1%N, 1); (3%N, 2); (4%N, 3); (6%N, 4); (24%N, 7); (32%N, 12); (34%N, 14); (42%N, 19); (44%N, 20); (45%N, 21); (48%N, 24); (61%N, 30); (1000%N, 58); (1001%N, 57); (1003%N, 148); (1004%N, 42); (1005%N, 56); (1006%N, 39); (1007%N, 62); (1008%N, 59); (1009%N, 48); (1010%N, 40); (1011%N, 49); (1012%N, 53); (1013%N, 54); (1014%N, 55); (1015%N, 255); (1016%N, 280)];
   mkst [(105, 2, 0x7c98848250c8800000%N)]
     [];
   mkst [(112, 1, 0x2100%N); (114, 1, 0x2100%N)]
     [(12%N, 281)];
   mkst [(110, 1, 0x2100%N)]
     [];
   mkst [(104, 2, 0x7c98848250c8800000%N); (111, 1, 0x2100%N)]
     [(8%N, 282); (13%N, 283)];
   mkst [(98, 4, 0x7ed8c4d350cc043170%N)]
     [];
   mkst [(103, 2, 0x7c98848250c8800000%N)]
     [];
   mkst [(84, 0, 0x7c98849250c8003050%N); (85, 0, 0x7c98849250c8003050%N); (86, 0, 0x7c98849250c8003050%N); (87, 0, 0x7c98849250c8003050%N); (88, 0, 0x7c98849250c8003050%N); (89, 0, 0x7c98849250c8003050%N); (90, 0, 0x7c98849250c8003050%N); (91, 0, 0x7c98849250c8003050%N); (92, 0, 0x7c98849250c8003050%N); (93, 0, 0x7c98849250c8003050%N); (94, 0, 0x7c98849250c8003050%N); (95, 0, 0x7c98849250c8003050%N); (96, 0, 0x7c98849250c8003050%N); (97, 0, 0x7c98849250c8003050%N); (97, 4, 0x7ed8c4d350cc043170%N); (98, 0, 0x7c98849250c8003050%N); (99, 0, 0x7c98849250c8003050%N); (100, 0, 0x100000200000%N); (101, 0, 0x100000200000%N); (103, 1, 0x7c98848250c8800000%N); (104, 0, 0x7c98848250c8800000%N); (105, 0, 0x7c98848250c8800000%N); (106, 0, 0x7c98849250c8003050%N); (107, 0, 0x7c98849250c8003050%N); (108, 0, 0x7c98849250c8003050%N); (109, 0, 0x7c98849250c8003050%N); (115, 0, 0x7c98849250c8003050%N); (116, 0, 0x7c98849250c8003050%N); (117, 0, 0x7c98849250c8003050%N); (118, 0, 0x7c98849250c8003050%N); (119, 0, 0x7c98849250c8003050%N); (124, 0, 0x7c98849250c8003050%N); (125, 0, 0x7c98849250c8003050%N); (126, 0, 0x7c98849250c8003050%N)]
     [(23%N, 284); (27%N, 9); (30%N, 10); (31%N, 11); (36%N, 15); (38%N, 16); (41%N, 18); (47%N, 23); (50%N, 25); (55%N, 27); (59%N, 28); (60%N, 29); (63%N, 32); (66%N, 34); (67%N, 35); (68%N, 36); (69%N, 37); (70%N, 38); (1025%N, 77); (1026%N, 65); (1027%N, 64); (1029%N, 239); (1030%N, 184); (1031%N, 73); (1034%N, 47); (1037%N, 76)];
   mkst [(163, 3, 0x40130%N)]
     [];
   mkst [(69, 0, 0x7ed8c4d350cc040170%N); (70, 0, 0x7ed8c4d350cc040170%N); (71, 0, 0x7ed8c4d350cc040170%N); (72, 0, 0x7ed8c4d350cc040170%N); (73, 0, 0x7ed8c4d350cc040170%N); (74, 0, 0x7ed8c4d350cc040170%N); (79, 0, 0x7ed8c4d350cc040170%N); (80, 0, 0x7ed8c4d350cc040170%N); (81, 0, 0x7ed8c4d350cc040170%N); (82, 0, 0x7ed8c4d350cc040170%N); (83, 0, 0x7ed8c4d350cc040170%N); (84, 0, 0x7ed8c4d350cc040170%N); (85, 0, 0x7ed8c4d350cc040170%N); (86, 0, 0x7ed8c4d350cc040170%N); (87, 0, 0x7ed8c4d350cc040170%N); (88, 0, 0x7ed8c4d350cc040170%N); (89, 0, 0x7ed8c4d350cc040170%N); (90, 0, 0x7ed8c4d350cc040170%N); (91, 0, 0x7ed8c4d350cc040170%N); (92, 0, 0x7ed8c4d350cc040170%N); (93, 0, 0x7ed8c4d350cc040170%N); (94, 0, 0x7ed8c4d350cc040170%N); (95, 0, 0x7ed8c4d350cc040170%N); (96, 0, 0x7ed8c4d350cc040170%N); (97, 0, 0x7ed8c4d350cc040170%N); (98, 0, 0x7ed8c4d350cc040170%N); (99, 0, 0x7ed8c4d350cc040170%N); (100, 0, 0x100000200000%N); (101, 0, 0x100000200000%N); (115, 0, 0x7ed8c4d350cc040170%N); (116, 0, 0x7ed8c4d350cc040170%N); (117, 0, 0x7ed8c4d350cc040170%N); (118, 0, 0x7ed8c4d350cc040170%N); (119, 0, 0x7ed8c4d350cc040170%N); (124, 0, 0x7ed8c4d350cc040170%N); (125, 0, 0x7ed8c4d350cc040170%N); (126, 0, 0x7ed8c4d350cc040170%N); (127, 0, 0x7ed8c4d350cc040170%N); (128, 0, 0x20%N); (129, 0, 0x20%N); (130, 0, 0x40030%N); (131, 0, 0x40030%N); (131, 1, 0x40130%N); (132, 0, 0x40030%N); (133, 0, 0x40030%N); (134, 0, 0x40030%N); (135, 0, 0x40030%N); (136, 0, 0x40030%N); (137, 0, 0x40030%N); (138, 0, 0x40030%N); (139, 0, 0x40030%N); (140, 0, 0x40030%N); (141, 0, 0x40030%N); (142, 0, 0x40030%N); (143, 0, 0x100000040030%N); (144, 0, 0x100000040030%N); (145, 0, 0x100000040030%N); (146, 0, 0x100000040030%N); (149, 0, 0x20%N); (150, 0, 0x20%N); (151, 0, 0x120%N); (152, 0, 0x120%N); (153, 0, 0x120%N); (154, 0, 0x120%N); (155, 0, 0x120%N); (160, 0, 0x20%N); (161, 0, 0x20%N); (162, 0, 0x20%N); (163, 0, 0x40030%N); (163, 1, 0x40130%N); (164, 0, 0x40030%N); (165, 0, 0x40030%N); (166, 0, 0x40030%N); (167, 0, 0x40030%N); (168, 0, 0x40030%N); (169, 0, 0x40030%N); (170, 0, 0x40030%N); (170, 1, 0x40130%N); (171, 0, 0x40030%N); (171, 1, 0x40130%N); (172, 0, 0x40030%N); (173, 0, 0x40030%N)]
     [(4%N, 242); (5%N, 195); (6%N, 91); (18%N, 136); (26%N, 8); (27%N, 9); (30%N, 10); (31%N, 11); (36%N, 15); (38%N, 16); (40%N, 17); (41%N, 18); (44%N, 93); (46%N, 22); (47%N, 23); (50%N, 25); (54%N, 26); (55%N, 27); (59%N, 28); (60%N, 29); (62%N, 31); (63%N, 32); (65%N, 33); (66%N, 34); (67%N, 35); (68%N, 36); (69%N, 37); (70%N, 38); (1020%N, 197); (1021%N, 45); (1024%N, 63); (1025%N, 67); (1026%N, 65); (1027%N, 64); (1034%N, 47); (1037%N, 66); (1038%N, 52); (1039%N, 151); (1040%N, 96); (1041%N, 245); (1043%N, 200); (1044%N, 199); (1045%N, 198); (1048%N, 196); (1049%N, 138)];
   mkst [(154, 2, 0x120%N)]
     [];
   mkst [(153, 2, 0x120%N)]
     [];
   mkst [(129, 1, 0x120%N); (130, 0, 0x40130%N); (131, 0, 0x40130%N); (132, 0, 0x40130%N); (133, 0, 0x40130%N); (134, 0, 0x40130%N); (135, 0, 0x40130%N); (136, 0, 0x40130%N); (137, 0, 0x40130%N); (138, 0, 0x40130%N); (139, 0, 0x40130%N); (140, 0, 0x40130%N); (141, 0, 0x40130%N); (142, 0, 0x40130%N); (160, 1, 0x120%N); (162, 1, 0x120%N); (163, 0, 0x40130%N); (164, 0, 0x40130%N); (165, 0, 0x40130%N); (166, 0, 0x40130%N); (167, 0, 0x40130%N); (168, 0, 0x40130%N); (169, 0, 0x40130%N); (170, 0, 0x40130%N); (171, 0, 0x40130%N); (172, 0, 0x40130%N); (173, 0, 0x40130%N)]
     [(4%N, 242); (18%N, 136); (44%N, 93); (1040%N, 160); (1049%N, 206)];
   mkst [(69, 0, 0x7ed8c4d350cc040170%N); (70, 0, 0x7ed8c4d350cc040170%N); (71, 0, 0x7ed8c4d350cc040170%N); (72, 0, 0x7ed8c4d350cc040170%N); (73, 0, 0x7ed8c4d350cc040170%N); (74, 0, 0x7ed8c4d350cc040170%N); (79, 0, 0x7ed8c4d350cc040170%N); (80, 0, 0x7ed8c4d350cc040170%N); (81, 0, 0x7ed8c4d350cc040170%N); (82, 0, 0x7ed8c4d350cc040170%N); (83, 0, 0x7ed8c4d350cc040170%N); (84, 0, 0x7ed8c4d350cc040170%N); (85, 0, 0x7ed8c4d350cc040170%N); (86, 0, 0x7ed8c4d350cc040170%N); (87, 0, 0x7ed8c4d350cc040170%N); (88, 0, 0x7ed8c4d350cc040170%N); (89, 0, 0x7ed8c4d350cc040170%N); (90, 0, 0x7ed8c4d350cc040170%N); (91, 0, 0x7ed8c4d350cc040170%N); (92, 0, 0x7ed8c4d350cc040170%N); (93, 0, 0x7ed8c4d350cc040170%N); (94, 0, 0x7ed8c4d350cc040170%N); (95, 0, 0x7ed8c4d350cc040170%N); (96, 0, 0x7ed8c4d350cc040170%N); (97, 0, 0x7ed8c4d350cc040170%N); (98, 0, 0x7ed8c4d350cc040170%N); (99, 0, 0x7ed8c4d350cc040170%N); (100, 0, 0x100000200000%N); (101, 0, 0x100000200000%N); (115, 0, 0x7ed8c4d350cc040170%N); (116, 0, 0x7ed8c4d350cc040170%N); (117, 0, 0x7ed8c4d350cc040170%N); (118, 0, 0x7ed8c4d350cc040170%N); (119, 0, 0x7ed8c4d350cc040170%N); (124, 0, 0x7ed8c4d350cc040170%N); (125, 0, 0x7ed8c4d350cc040170%N); (126, 0, 0x7ed8c4d350cc040170%N); (127, 0, 0x7ed8c4d350cc040170%N); (150, 2, 0x20%N); (152, 2, 0x120%N); (153, 0, 0x120%N); (154, 0, 0x120%N); (155, 0, 0x120%N)]
     [(26%N, 8); (27%N, 9); (30%N, 10); (31%N, 11); (36%N, 15); (37%N, 285); (38%N, 16); (40%N, 17); (41%N, 18); (46%N, 22); (47%N, 23); (50%N, 25); (54%N, 26); (55%N, 27); (59%N, 28); (60%N, 29); (62%N, 31); (63%N, 32); (65%N, 33); (66%N, 34); (67%N, 35); (68%N, 36); (69%N, 37); (70%N, 38); (1020%N, 197); (1021%N, 45); (1024%N, 63); (1025%N, 67); (1026%N, 65); (1027%N, 64); (1034%N, 47); (1037%N, 66); (1038%N, 52); (1045%N, 286)];
   mkst [(171, 3, 0x40130%N)]
     [];
   mkst [(168, 3, 0x40130%N)]
     [];
   mkst [(165, 3, 0x40130%N)]
     [];
   mkst [(172, 3, 0x40130%N)]
     [];
   mkst [(173, 3, 0x40130%N)]
     [(5%N, 287)];
   mkst [(0, 0, 0x81073a288c325fcedc%N); (1, 0, 0x81073a288c325fcedc%N); (2, 0, 0x81073a288c325fcedc%N); (3, 0, 0x81073a288c325fcedc%N); (4, 0, 0x81073a288c325fcedc%N); (5, 0, 0x81073a288c325fcedc%N); (6, 0, 0x81073a288c325fcedc%N); (7, 0, 0x81073a288c325fcedc%N); (8, 0, 0x81073a288c325fcedc%N); (9, 0, 0x81073a288c325fcedc%N); (10, 0, 0x81073a288c325fcedc%N); (11, 0, 0x81073a288c325fcedc%N); (12, 0, 0x81073a288c325fcedc%N); (15, 0, 0x81071a0888325bcacc%N); (16, 0, 0x81071a0888325bcacc%N); (17, 0, 0x81071a0888325bcacc%N); (18, 0, 0x81071a0888325bcacc%N); (19, 0, 0x81071a0888325bcacc%N); (20, 0, 0x81071a0888325bcacc%N); (20, 1, 0x81071a0888325bcacc%N); (21, 0, 0x81071a0888325bcacc%N); (22, 0, 0x81071a0888325bcacc%N); (23, 0, 0x81071a0888325bcacc%N); (169, 3, 0x40130%N)]
     [(1%N, 1); (3%N, 2); (4%N, 69); (6%N, 4); (19%N, 288); (24%N, 7); (32%N, 12); (34%N, 14); (42%N, 19); (44%N, 20); (45%N, 21); (48%N, 24); (61%N, 30); (1000%N, 58); (1001%N, 57); (1003%N, 78)];
   mkst [(166, 3, 0x40130%N)]
     [];
   mkst [(167, 3, 0x40130%N)]
     [(19%N, 289)];
   mkst [(56, 1, 0x882100%N)]
     [];
   mkst [(123, 3, 0x800100%N)]
     [];
   mkst [(117, 5, 0x7ed8c4d350cc043170%N)]
     [];
   mkst [(121, 3, 0x800100%N)]
     [];
   mkst [(118, 5, 0x7ed8c4d350cc043170%N); (121, 2, 0x800100%N); (122, 0, 0x800100%N); (123, 0, 0x800100%N)]
     [(23%N, 290); (44%N, 142); (1036%N, 258)];
   mkst [(116, 5, 0x7ed8c4d350cc043170%N)]
     [];
   mkst [(185, 1, 0x48400%N)]
     [(44%N, 291)];
   mkst [(0, 0, 0x6322884305f4edc%N); (1, 0, 0x6322884305f4edc%N); (2, 0, 0x6322884305f4edc%N); (3, 0, 0x6322884305f4edc%N); (4, 0, 0x6322884305f4edc%N); (5, 0, 0x6322884305f4edc%N); (6, 0, 0x6322884305f4edc%N); (7, 0, 0x6322884305f4edc%N); (8, 0, 0x6322884305f4edc%N); (9, 0, 0x6322884305f4edc%N); (10, 0, 0x6322884305f4edc%N); (11, 0, 0x6322884305f4edc%N); (12, 0, 0x6322884305f4edc%N); (15, 0, 0x6120880305b4acc%N); (16, 0, 0x6120880305b4acc%N); (17, 0, 0x6120880305b4acc%N); (18, 0, 0x6120880305b4acc%N); (19, 0, 0x6120880305b4acc%N); (20, 0, 0x6120880305b4acc%N); (21, 0, 0x6120880305b4acc%N); (22, 0, 0x6120880305b4acc%N); (23, 0, 0x6120880305b4acc%N); (24, 0, 0x6120880305b4acc%N); (25, 0, 0x6120880305b4acc%N); (26, 0, 0x6120880305b4acc%N); (27, 0, 0x6120880305b4acc%N); (28, 0, 0x6120880305b4acc%N); (29, 0, 0x6120880305b4acc%N); (30, 0, 0x6120880305b4288%N); (31, 0, 0x6120880305b4288%N); (32, 0, 0x6120880305b4288%N); (33, 0, 0x6120880305b4008%N); (34, 0, 0x6120880305b4008%N); (35, 0, 0x6120880305b4008%N); (36, 0, 0x120880305b4008%N); (37, 0, 0x120880305b4008%N); (38, 0, 0x120880305b4008%N); (39, 0, 0x120880305b4008%N); (40, 0, 0x120880305b4008%N); (41, 0, 0x100080305a0008%N); (42, 0, 0x100080305a0008%N); (43, 0, 0x100080305a0008%N); (44, 0, 0x305a0008%N); (45, 0, 0x305a0008%N); (46, 0, 0x305a0000%N); (47, 0, 0x305a0000%N); (48, 0, 0x304a0000%N); (49, 0, 0x304a0000%N); (50, 0, 0x300a0000%N); (51, 0, 0x300a0000%N); (52, 0, 0x200a0000%N); (53, 0, 0x200a0000%N); (54, 0, 0x80000%N); (55, 0, 0x80000%N); (56, 0, 0x80000%N); (184, 1, 0x48400%N)]
     [(1%N, 1); (3%N, 2); (4%N, 3); (6%N, 4); (24%N, 7); (32%N, 12); (34%N, 14); (42%N, 19); (44%N, 20); (45%N, 21); (48%N, 24); (61%N, 30); (1000%N, 58); (1001%N, 57); (1003%N, 148); (1004%N, 42); (1005%N, 56); (1006%N, 39); (1007%N, 62); (1008%N, 59); (1009%N, 48); (1010%N, 40); (1011%N, 49); (1012%N, 53); (1013%N, 54); (1014%N, 55); (1015%N, 255); (1016%N, 292)];
   mkst [(0, 0, 0x81073a288c32d7cfdc%N); (1, 0, 0x81073a288c32d7cfdc%N); (2, 0, 0x81073a288c32d7cfdc%N); (3, 0, 0x81073a288c32d7cfdc%N); (4, 0, 0x81073a288c32d7cfdc%N); (5, 0, 0x81073a288c32d7cfdc%N); (6, 0, 0x81073a288c32d7cfdc%N); (7, 0, 0x81073a288c32d7cfdc%N); (8, 0, 0x81073a288c32d7cfdc%N); (9, 0, 0x81073a288c32d7cfdc%N); (10, 0, 0x81073a288c32d7cfdc%N); (11, 0, 0x81073a288c32d7cfdc%N); (12, 0, 0x81073a288c32d7cfdc%N); (15, 0, 0x81071a088832d3cbcc%N); (16, 0, 0x81071a088832d3cbcc%N); (17, 0, 0x81071a088832d3cbcc%N); (18, 0, 0x81071a088832d3cbcc%N); (19, 0, 0x81071a088832d3cbcc%N); (20, 0, 0x81071a088832d3cbcc%N); (21, 0, 0x81071a088832d3cbcc%N); (22, 0, 0x81071a088832d3cbcc%N); (23, 0, 0x81071a088832d3cbcc%N); (24, 0, 0x612088030d34bcc%N); (25, 0, 0x612088030d34bcc%N); (26, 0, 0x612088030d34bcc%N); (27, 0, 0x612088030d34bcc%N); (28, 0, 0x612088030d34bcc%N); (29, 0, 0x612088030d34bcc%N); (30, 0, 0x612088030d34388%N); (31, 0, 0x612088030d34388%N); (32, 0, 0x612088030d34388%N); (33, 0, 0x612088030d34108%N); (34, 0, 0x612088030d34108%N); (35, 0, 0x612088030d34108%N); (36, 0, 0x12088030d34108%N); (37, 0, 0x12088030d34108%N); (38, 0, 0x12088030d34108%N); (39, 0, 0x12088030d34108%N); (40, 0, 0x12088030d34108%N); (41, 0, 0x10008030d20108%N); (42, 0, 0x10008030d20108%N); (43, 0, 0x10008030d20108%N); (44, 0, 0x30d20108%N); (45, 0, 0x30d20108%N); (46, 0, 0x30d20100%N); (47, 0, 0x30d20100%N); (48, 0, 0x30c20100%N); (49, 0, 0x30c20100%N); (50, 0, 0x30820100%N); (51, 0, 0x30820100%N); (52, 0, 0x20820100%N); (53, 0, 0x20820100%N); (54, 0, 0x800100%N); (55, 0, 0x800100%N); (57, 0, 0x800100%N); (58, 0, 0x800100%N); (59, 0, 0x800100%N); (60, 0, 0x800100%N); (61, 0, 0x800100%N); (62, 0, 0x800100%N); (63, 0, 0x800100%N); (64, 0, 0x800100%N); (174, 0, 0x800100%N); (175, 0, 0x800100%N); (176, 0, 0x800100%N); (178, 1, 0x800100%N)]
     [(1%N, 1); (3%N, 2); (4%N, 3); (6%N, 4); (21%N, 216); (24%N, 7); (32%N, 12); (34%N, 14); (42%N, 19); (44%N, 20); (45%N, 21); (48%N, 24); (61%N, 30); (1000%N, 58); (1001%N, 57); (1003%N, 68); (1004%N, 42); (1005%N, 56); (1006%N, 39); (1007%N, 62); (1008%N, 59); (1009%N, 48); (1010%N, 40); (1011%N, 49); (1012%N, 53); (1013%N, 54); (1014%N, 55); (1015%N, 43); (1017%N, 217); (1050%N, 293)];
   mkst [(182, 1, 0x48400%N)]
     [];
   mkst [(181, 1, 0x200134050120005a%N); (183, 1, 0x48400%N); (184, 0, 0x48400%N); (185, 0, 0x48400%N)]
     [(10%N, 261); (15%N, 294); (18%N, 262); (1054%N, 295)];
   mkst [(177, 1, 0x800100%N)]
     [];
   mkst [(175, 2, 0x802100%N); (176, 2, 0x802100%N); (179, 1, 0x800100%N); (180, 1, 0x800100%N)]
     [(8%N, 296); (23%N, 297)];
   mkst [(141, 4, 0x4b130%N)]
     [];
   mkst [(157, 2, 0x120%N)]
     [(44%N, 298)];
   mkst [(140, 4, 0x4b130%N)]
     [];
   mkst [(138, 4, 0x4b130%N)]
     [];
   mkst [(0, 0, 0x81073a288c325fcedc%N); (1, 0, 0x81073a288c325fcedc%N); (2, 0, 0x81073a288c325fcedc%N); (3, 0, 0x81073a288c325fcedc%N); (4, 0, 0x81073a288c325fcedc%N); (5, 0, 0x81073a288c325fcedc%N); (6, 0, 0x81073a288c325fcedc%N); (7, 0, 0x81073a288c325fcedc%N); (8, 0, 0x81073a288c325fcedc%N); (9, 0, 0x81073a288c325fcedc%N); (10, 0, 0x81073a288c325fcedc%N); (11, 0, 0x81073a288c325fcedc%N); (12, 0, 0x81073a288c325fcedc%N); (15, 0, 0x81071a0888325bcacc%N); (16, 0, 0x81071a0888325bcacc%N); (17, 0, 0x81071a0888325bcacc%N); (18, 0, 0x81071a0888325bcacc%N); (19, 0, 0x81071a0888325bcacc%N); (20, 0, 0x81071a0888325bcacc%N); (21, 0, 0x81071a0888325bcacc%N); (22, 0, 0x81071a0888325bcacc%N); (23, 0, 0x81071a0888325bcacc%N); (24, 0, 0x6120880305b4acc%N); (25, 0, 0x6120880305b4acc%N); (26, 0, 0x6120880305b4acc%N); (27, 0, 0x6120880305b4acc%N); (28, 0, 0x6120880305b4acc%N); (29, 0, 0x6120880305b4acc%N); (30, 0, 0x6120880305b4288%N); (31, 0, 0x6120880305b4288%N); (32, 0, 0x6120880305b4288%N); (33, 0, 0x6120880305b4008%N); (34, 0, 0x6120880305b4008%N); (35, 0, 0x6120880305b4008%N); (36, 0, 0x120880305b4008%N); (37, 0, 0x120880305b4008%N); (38, 0, 0x120880305b4008%N); (39, 0, 0x120880305b4008%N); (40, 0, 0x120880305b4008%N); (41, 0, 0x100080305a0008%N); (42, 0, 0x100080305a0008%N); (43, 0, 0x100080305a0008%N); (44, 0, 0x305a0008%N); (45, 0, 0x305a0008%N); (46, 0, 0x305a0000%N); (47, 0, 0x305a0000%N); (48, 0, 0x304a0000%N); (49, 0, 0x304a0000%N); (50, 0, 0x300a0000%N); (51, 0, 0x300a0000%N); (52, 0, 0x200a0000%N); (53, 0, 0x200a0000%N); (54, 0, 0x80000%N); (55, 0, 0x80000%N); (57, 0, 0x80000%N); (58, 0, 0x80000%N); (59, 0, 0x80000%N); (60, 0, 0x80000%N); (61, 0, 0x80000%N); (62, 0, 0x80000%N); (63, 0, 0x80000%N); (64, 0, 0x80000%N); (124, 0, 0x40208134058100005a%N); (125, 0, 0x40208134058100005a%N); (126, 0, 0x40208134058100005a%N); (135, 4, 0x4b130%N); (148, 1, 0x40208134058100005a%N)]
     [(1%N, 1); (3%N, 2); (4%N, 3); (6%N, 4); (24%N, 7); (31%N, 11); (32%N, 12); (34%N, 14); (42%N, 19); (44%N, 20); (45%N, 21); (48%N, 24); (55%N, 27); (61%N, 30); (70%N, 38); (1000%N, 58); (1001%N, 57); (1003%N, 68); (1004%N, 42); (1005%N, 56); (1006%N, 39); (1007%N, 62); (1008%N, 59); (1009%N, 48); (1010%N, 40); (1011%N, 49); (1012%N, 53); (1013%N, 54); (1014%N, 55); (1015%N, 43); (1017%N, 299); (1037%N, 215)];
   mkst [(134, 4, 0x4b130%N)]
     [];
   mkst [(0, 0, 0x81073a288c325fcedc%N); (1, 0, 0x81073a288c325fcedc%N); (2, 0, 0x81073a288c325fcedc%N); (3, 0, 0x81073a288c325fcedc%N); (4, 0, 0x81073a288c325fcedc%N); (5, 0, 0x81073a288c325fcedc%N); (6, 0, 0x81073a288c325fcedc%N); (7, 0, 0x81073a288c325fcedc%N); (8, 0, 0x81073a288c325fcedc%N); (9, 0, 0x81073a288c325fcedc%N); (10, 0, 0x81073a288c325fcedc%N); (11, 0, 0x81073a288c325fcedc%N); (12, 0, 0x81073a288c325fcedc%N); (15, 0, 0x81071a0888325bcacc%N); (16, 0, 0x81071a0888325bcacc%N); (17, 0, 0x81071a0888325bcacc%N); (18, 0, 0x81071a0888325bcacc%N); (19, 0, 0x81071a0888325bcacc%N); (20, 0, 0x81071a0888325bcacc%N); (20, 1, 0x81071a0888325bcacc%N); (21, 0, 0x81071a0888325bcacc%N); (22, 0, 0x81071a0888325bcacc%N); (23, 0, 0x81071a0888325bcacc%N); (137, 4, 0x4b130%N)]
     [(1%N, 1); (3%N, 2); (4%N, 69); (6%N, 4); (19%N, 300); (24%N, 7); (32%N, 12); (34%N, 14); (42%N, 19); (44%N, 20); (45%N, 21); (48%N, 24); (61%N, 30); (1000%N, 58); (1001%N, 57); (1003%N, 78)];
   mkst [(133, 4, 0x4b130%N)]
     [];
   mkst [(0, 0, 0x81073a288c325fcedc%N); (1, 0, 0x81073a288c325fcedc%N); (2, 0, 0x81073a288c325fcedc%N); (3, 0, 0x81073a288c325fcedc%N); (4, 0, 0x81073a288c325fcedc%N); (5, 0, 0x81073a288c325fcedc%N); (6, 0, 0x81073a288c325fcedc%N); (7, 0, 0x81073a288c325fcedc%N); (8, 0, 0x81073a288c325fcedc%N); (9, 0, 0x81073a288c325fcedc%N); (10, 0, 0x81073a288c325fcedc%N); (11, 0, 0x81073a288c325fcedc%N); (12, 0, 0x81073a288c325fcedc%N); (15, 0, 0x81071a0888325bcacc%N); (16, 0, 0x81071a0888325bcacc%N); (17, 0, 0x81071a0888325bcacc%N); (18, 0, 0x81071a0888325bcacc%N); (19, 0, 0x81071a0888325bcacc%N); (20, 0, 0x81071a0888325bcacc%N); (21, 0, 0x81071a0888325bcacc%N); (22, 0, 0x81071a0888325bcacc%N); (23, 0, 0x81071a0888325bcacc%N); (24, 0, 0x6120880305b4acc%N); (25, 0, 0x6120880305b4acc%N); (26, 0, 0x6120880305b4acc%N); (27, 0, 0x6120880305b4acc%N); (28, 0, 0x6120880305b4acc%N); (29, 0, 0x6120880305b4acc%N); (30, 0, 0x6120880305b4288%N); (31, 0, 0x6120880305b4288%N); (32, 0, 0x6120880305b4288%N); (33, 0, 0x6120880305b4008%N); (34, 0, 0x6120880305b4008%N); (35, 0, 0x6120880305b4008%N); (36, 0, 0x120880305b4008%N); (37, 0, 0x120880305b4008%N); (38, 0, 0x120880305b4008%N); (39, 0, 0x120880305b4008%N); (40, 0, 0x120880305b4008%N); (41, 0, 0x100080305a0008%N); (42, 0, 0x100080305a0008%N); (43, 0, 0x100080305a0008%N); (44, 0, 0x305a0008%N); (45, 0, 0x305a0008%N); (46, 0, 0x305a0000%N); (47, 0, 0x305a0000%N); (48, 0, 0x304a0000%N); (49, 0, 0x304a0000%N); (50, 0, 0x300a0000%N); (51, 0, 0x300a0000%N); (52, 0, 0x200a0000%N); (53, 0, 0x200a0000%N); (54, 0, 0x80000%N); (55, 0, 0x80000%N); (57, 0, 0x80000%N); (58, 0, 0x80000%N); (59, 0, 0x80000%N); (60, 0, 0x80000%N); (61, 0, 0x80000%N); (62, 0, 0x80000%N); (63, 0, 0x80000%N); (64, 0, 0x80000%N); (136, 4, 0x4b130%N)]
     [(1%N, 1); (3%N, 2); (4%N, 3); (6%N, 4); (24%N, 7); (32%N, 12); (34%N, 14); (42%N, 19); (44%N, 20); (45%N, 21); (48%N, 24); (61%N, 30); (1000%N, 58); (1001%N, 57); (1003%N, 68); (1004%N, 42); (1005%N, 56); (1006%N, 39); (1007%N, 62); (1008%N, 59); (1009%N, 48); (1010%N, 40); (1011%N, 49); (1012%N, 53); (1013%N, 54); (1014%N, 55); (1015%N, 43); (1017%N, 301)];
   mkst [(132, 4, 0x4b130%N)]
     [(19%N, 302)];
   mkst [(55, 5, 0x883120%N)]
     [];
   mkst [(14, 3, 0x120%N)]
     [];
   mkst [(113, 2, 0x2100%N)]
     [];
   mkst [(0, 0, 0x632288430576fdc%N); (1, 0, 0x632288430576fdc%N); (2, 0, 0x632288430576fdc%N); (3, 0, 0x632288430576fdc%N); (4, 0, 0x632288430576fdc%N); (5, 0, 0x632288430576fdc%N); (6, 0, 0x632288430576fdc%N); (7, 0, 0x632288430576fdc%N); (8, 0, 0x632288430576fdc%N); (9, 0, 0x632288430576fdc%N); (10, 0, 0x632288430576fdc%N); (11, 0, 0x632288430576fdc%N); (12, 0, 0x632288430576fdc%N); (15, 0, 0x612088030536bcc%N); (16, 0, 0x612088030536bcc%N); (17, 0, 0x612088030536bcc%N); (18, 0, 0x612088030536bcc%N); (19, 0, 0x612088030536bcc%N); (20, 0, 0x612088030536bcc%N); (21, 0, 0x612088030536bcc%N); (22, 0, 0x612088030536bcc%N); (23, 0, 0x612088030536bcc%N); (24, 0, 0x612088030536bcc%N); (25, 0, 0x612088030536bcc%N); (26, 0, 0x612088030536bcc%N); (27, 0, 0x612088030536bcc%N); (28, 0, 0x612088030536bcc%N); (29, 0, 0x612088030536bcc%N); (30, 0, 0x612088030536388%N); (31, 0, 0x612088030536388%N); (32, 0, 0x612088030536388%N); (33, 0, 0x612088030536108%N); (34, 0, 0x612088030536108%N); (35, 0, 0x612088030536108%N); (36, 0, 0x12088030536108%N); (37, 0, 0x12088030536108%N); (38, 0, 0x12088030536108%N); (39, 0, 0x12088030536108%N); (40, 0, 0x12088030536108%N); (41, 0, 0x10008030522108%N); (42, 0, 0x10008030522108%N); (43, 0, 0x10008030522108%N); (44, 0, 0x30522108%N); (45, 0, 0x30522108%N); (46, 0, 0x30522100%N); (47, 0, 0x30522100%N); (48, 0, 0x30422100%N); (49, 0, 0x30422100%N); (50, 0, 0x30022100%N); (51, 0, 0x30022100%N); (52, 0, 0x20022100%N); (53, 0, 0x20022100%N); (54, 0, 0x2100%N); (55, 0, 0x2100%N); (56, 0, 0x2100%N); (114, 2, 0x2100%N)]
     [(1%N, 1); (3%N, 2); (4%N, 3); (6%N, 4); (24%N, 7); (32%N, 12); (34%N, 14); (42%N, 19); (44%N, 20); (45%N, 21); (48%N, 24); (61%N, 30); (1000%N, 58); (1001%N, 57); (1003%N, 148); (1004%N, 42); (1005%N, 56); (1006%N, 39); (1007%N, 62); (1008%N, 59); (1009%N, 48); (1010%N, 40); (1011%N, 49); (1012%N, 53); (1013%N, 54); (1014%N, 55); (1015%N, 255); (1016%N, 303)];
   mkst [(111, 2, 0x2100%N); (112, 0, 0x2100%N); (113, 0, 0x2100%N); (114, 0, 0x2100%N); (128, 0, 0x3100%N); (129, 0, 0x3100%N); (130, 0, 0x43110%N); (131, 0, 0x43110%N); (132, 0, 0x43110%N); (133, 0, 0x43110%N); (134, 0, 0x43110%N); (135, 0, 0x43110%N); (136, 0, 0x43110%N); (137, 0, 0x43110%N); (138, 0, 0x43110%N); (139, 0, 0x43110%N); (140, 0, 0x43110%N); (141, 0, 0x43110%N); (142, 0, 0x43110%N); (143, 0, 0x100000000010%N); (144, 0, 0x100000000010%N); (145, 0, 0x100000000010%N); (146, 0, 0x100000000010%N)]
     [(4%N, 90); (6%N, 91); (12%N, 233); (44%N, 93); (1033%N, 304); (1039%N, 235); (1040%N, 96); (1041%N, 99)];
   mkst [(104, 3, 0x7c98848250c8800000%N)]
     [];
   mkst [(97, 5, 0x7ed8c4d350cc043170%N)]
     [];
   mkst [(150, 3, 0x20%N)]
     [];
   mkst [(152, 3, 0x120%N)]
     [];
   mkst [(173, 4, 0x40130%N)]
     [];
   mkst [(169, 4, 0x40130%N)]
     [];
   mkst [(167, 4, 0x40130%N)]
     [];
   mkst [(118, 6, 0x7ed8c4d350cc043170%N)]
     [];
   mkst [(185, 2, 0x48400%N)]
     [];
   mkst [(184, 2, 0x48400%N)]
     [(19%N, 305)];
   mkst [(178, 2, 0x800100%N)]
     [];
   mkst [(181, 2, 0x200134050120005a%N)]
     [];
   mkst [(183, 2, 0x48400%N)]
     [];
   mkst [(0, 0, 0x81073a288c32d7cfdc%N); (1, 0, 0x81073a288c32d7cfdc%N); (2, 0, 0x81073a288c32d7cfdc%N); (3, 0, 0x81073a288c32d7cfdc%N); (4, 0, 0x81073a288c32d7cfdc%N); (5, 0, 0x81073a288c32d7cfdc%N); (6, 0, 0x81073a288c32d7cfdc%N); (7, 0, 0x81073a288c32d7cfdc%N); (8, 0, 0x81073a288c32d7cfdc%N); (9, 0, 0x81073a288c32d7cfdc%N); (10, 0, 0x81073a288c32d7cfdc%N); (11, 0, 0x81073a288c32d7cfdc%N); (12, 0, 0x81073a288c32d7cfdc%N); (15, 0, 0x81071a088832d3cbcc%N); (16, 0, 0x81071a088832d3cbcc%N); (17, 0, 0x81071a088832d3cbcc%N); (18, 0, 0x81071a088832d3cbcc%N); (19, 0, 0x81071a088832d3cbcc%N); (20, 0, 0x81071a088832d3cbcc%N); (21, 0, 0x81071a088832d3cbcc%N); (22, 0, 0x81071a088832d3cbcc%N); (23, 0, 0x81071a088832d3cbcc%N); (24, 0, 0x612088030d34bcc%N); (25, 0, 0x612088030d34bcc%N); (26, 0, 0x612088030d34bcc%N); (27, 0, 0x612088030d34bcc%N); (28, 0, 0x612088030d34bcc%N); (29, 0, 0x612088030d34bcc%N); (30, 0, 0x612088030d34388%N); (31, 0, 0x612088030d34388%N); (32, 0, 0x612088030d34388%N); (33, 0, 0x612088030d34108%N); (34, 0, 0x612088030d34108%N); (35, 0, 0x612088030d34108%N); (36, 0, 0x12088030d34108%N); (37, 0, 0x12088030d34108%N); (38, 0, 0x12088030d34108%N); (39, 0, 0x12088030d34108%N); (40, 0, 0x12088030d34108%N); (41, 0, 0x10008030d20108%N); (42, 0, 0x10008030d20108%N); (43, 0, 0x10008030d20108%N); (44, 0, 0x30d20108%N); (45, 0, 0x30d20108%N); (46, 0, 0x30d20100%N); (47, 0, 0x30d20100%N); (48, 0, 0x30c20100%N); (49, 0, 0x30c20100%N); (50, 0, 0x30820100%N); (51, 0, 0x30820100%N); (52, 0, 0x20820100%N); (53, 0, 0x20820100%N); (54, 0, 0x800100%N); (55, 0, 0x800100%N); (57, 0, 0x800100%N); (58, 0, 0x800100%N); (59, 0, 0x800100%N); (60, 0, 0x800100%N); (61, 0, 0x800100%N); (62, 0, 0x800100%N); (63, 0, 0x800100%N); (64, 0, 0x800100%N); (174, 0, 0x800100%N); (175, 0, 0x800100%N); (176, 0, 0x800100%N); (176, 3, 0x802100%N); (179, 2, 0x800100%N); (180, 2, 0x800100%N); (181, 0, 0x200134050120005a%N); (182, 0, 0x48400%N); (183, 0, 0x48400%N); (184, 0, 0x48400%N); (185, 0, 0x48400%N)]
     [(1%N, 1); (3%N, 2); (4%N, 3); (6%N, 4); (10%N, 261); (18%N, 262); (21%N, 216); (23%N, 306); (24%N, 7); (32%N, 12); (34%N, 14); (42%N, 19); (44%N, 20); (45%N, 21); (48%N, 24); (61%N, 30); (1000%N, 58); (1001%N, 57); (1003%N, 68); (1004%N, 42); (1005%N, 56); (1006%N, 39); (1007%N, 62); (1008%N, 59); (1009%N, 48); (1010%N, 40); (1011%N, 49); (1012%N, 53); (1013%N, 54); (1014%N, 55); (1015%N, 43); (1017%N, 217); (1050%N, 308); (1052%N, 307); (1053%N, 265); (1054%N, 264)];
   mkst [(175, 3, 0x802100%N)]
     [];
   mkst [(157, 3, 0x120%N)]
     [];
   mkst [(135, 5, 0x4b130%N)]
     [(19%N, 309)];
   mkst [(137, 5, 0x4b130%N)]
     [];
   mkst [(136, 5, 0x4b130%N)]
     [(19%N, 310)];
   mkst [(132, 5, 0x4b130%N)]
     [];
   mkst [(114, 3, 0x2100%N)]
     [];
   mkst [(111, 3, 0x2100%N)]
     [];
   mkst [(184, 3, 0x48400%N)]
     [];
   mkst [(176, 4, 0x802100%N)]
     [];
   mkst [(0, 0, 0x81073a288c32d7cfdc%N); (1, 0, 0x81073a288c32d7cfdc%N); (2, 0, 0x81073a288c32d7cfdc%N); (3, 0, 0x81073a288c32d7cfdc%N); (4, 0, 0x81073a288c32d7cfdc%N); (5, 0, 0x81073a288c32d7cfdc%N); (6, 0, 0x81073a288c32d7cfdc%N); (7, 0, 0x81073a288c32d7cfdc%N); (8, 0, 0x81073a288c32d7cfdc%N); (9, 0, 0x81073a288c32d7cfdc%N); (10, 0, 0x81073a288c32d7cfdc%N); (11, 0, 0x81073a288c32d7cfdc%N); (12, 0, 0x81073a288c32d7cfdc%N); (15, 0, 0x81071a088832d3cbcc%N); (16, 0, 0x81071a088832d3cbcc%N); (17, 0, 0x81071a088832d3cbcc%N); (18, 0, 0x81071a088832d3cbcc%N); (19, 0, 0x81071a088832d3cbcc%N); (20, 0, 0x81071a088832d3cbcc%N); (21, 0, 0x81071a088832d3cbcc%N); (22, 0, 0x81071a088832d3cbcc%N); (23, 0, 0x81071a088832d3cbcc%N); (24, 0, 0x612088030d34bcc%N); (25, 0, 0x612088030d34bcc%N); (26, 0, 0x612088030d34bcc%N); (27, 0, 0x612088030d34bcc%N); (28, 0, 0x612088030d34bcc%N); (29, 0, 0x612088030d34bcc%N); (30, 0, 0x612088030d34388%N); (31, 0, 0x612088030d34388%N); (32, 0, 0x612088030d34388%N); (33, 0, 0x612088030d34108%N); (34, 0, 0x612088030d34108%N); (35, 0, 0x612088030d34108%N); (36, 0, 0x12088030d34108%N); (37, 0, 0x12088030d34108%N); (38, 0, 0x12088030d34108%N); (39, 0, 0x12088030d34108%N); (40, 0, 0x12088030d34108%N); (41, 0, 0x10008030d20108%N); (42, 0, 0x10008030d20108%N); (43, 0, 0x10008030d20108%N); (44, 0, 0x30d20108%N); (45, 0, 0x30d20108%N); (46, 0, 0x30d20100%N); (47, 0, 0x30d20100%N); (48, 0, 0x30c20100%N); (49, 0, 0x30c20100%N); (50, 0, 0x30820100%N); (51, 0, 0x30820100%N); (52, 0, 0x20820100%N); (53, 0, 0x20820100%N); (54, 0, 0x800100%N); (55, 0, 0x800100%N); (57, 0, 0x800100%N); (58, 0, 0x800100%N); (59, 0, 0x800100%N); (60, 0, 0x800100%N); (61, 0, 0x800100%N); (62, 0, 0x800100%N); (63, 0, 0x800100%N); (64, 0, 0x800100%N); (174, 0, 0x800100%N); (175, 0, 0x800100%N); (176, 0, 0x800100%N); (180, 3, 0x800100%N)]
     [(1%N, 1); (3%N, 2); (4%N, 3); (6%N, 4); (21%N, 216); (24%N, 7); (32%N, 12); (34%N, 14); (42%N, 19); (44%N, 20); (45%N, 21); (48%N, 24); (61%N, 30); (1000%N, 58); (1001%N, 57); (1003%N, 68); (1004%N, 42); (1005%N, 56); (1006%N, 39); (1007%N, 62); (1008%N, 59); (1009%N, 48); (1010%N, 40); (1011%N, 49); (1012%N, 53); (1013%N, 54); (1014%N, 55); (1015%N, 43); (1017%N, 217); (1050%N, 311)];
   mkst [(179, 3, 0x800100%N)]
     [];
   mkst [(135, 6, 0x4b130%N)]
     [];
   mkst [(136, 6, 0x4b130%N)]
     [];
   mkst [(180, 4, 0x800100%N)]
     []].
Lemma repl_checked : check REPL_T repl_terminals repl_states repl_firsts = true.
Proof. vm_compute. reflexivity. Qed.
(** The terminals of the grammar. *)
Definition cscript_terminals : list sym :=
  [C "!"; C "%"; C "&"; C "("; C ")"; C "*"; C "+"; C ","; C "-"; C "."; C "/"; C ":"; C ";"; C "<"; C "="; C ">"; C "?"; C "["; C "]"; C "^"; C "{"; C "|"; C "}"; C "~"; K "ADD_ASSIGN"; K "AUTO"; K "BOOL"; K "BOOL_OP_AND"; K "BOOL_OP_OR"; K "BREAK"; K "CHAR"; K "CONST"; K "CONST_STRING"; K "DEC"; K "DIV_ASSIGN"; K "DOUBLE"; K "ELLIPSIS"; K "ELSE"; K "ENUM"; K "EQUATE"; K "EXTERN"; K "FLOAT"; K "FLOAT_CST"; K "FOR"; K "GREATER_OR_EQUAL"; K "IDENTIFIER"; K "IF"; K "INC"; K "INLINE"; K "INT"; K "INTEGER"; K "LESS_OR_EQUAL"; K "LONG"; K "LSHIFT_ASSIGN"; K "NOT_EQUATE"; K "PTR_ACCESS"; K "REGISTER"; K "REPL"; K "RESTRICT"; K "RETURN"; K "RSHIFT_ASSIGN"; K "SHIFT_LEFT"; K "SHIFT_RIGHT"; K "SHORT"; K "SIGNED"; K "SIZEOF"; K "STATIC"; K "STRUCT"; K "SUB_ASSIGN"; K "TYPEDEF"; K "TYPE_NAME"; K "UNION"; K "UNSIGNED"; K "VOID"; K "VOLATILE"; K "WHILE"; K "XOR_ASSIGN"].
(** The first tokens of the nonterminals. *)
Definition cscript_firsts : list N :=
  [2330973240819728; 2330973240819728; 73789588760252383322; 73789588760252383322; 73789588760252383322; 73789588760252383322; 73789588760252383322; 73789588760252383322; 73789588760252383322; 73789588760252383322; 73789588760252383322; 73789588760252383322; 73789588760252383322; 73789588760252383322; 73789588760252383322; 73789588760252383322; 73789588760252383322; 73789588760252383322; 73789588760252383322; 74876065474398753128448; 74876065474398753128448; 74876065474398753128448; 70368744177744; 70368744177744; 1328309690694253936640; 35768246897040785670144; 5017514388048998039552; 5017514388048998039552; 73547755220754545770496; 73547755220754545770496; 73547755220754545770496; 73547755220754545770496; 70368744181840; 70368744181840; 549755813888; 70368744177664; 70368744177664; 37779508323713760100352; 562949953421312; 70368744177744; 70368744177680; 64; 37779508323713760100352; 74876065474398753128448; 74876065474398753128448; 74876065474398753128448; 70368744177664; 73547755220754545770496; 262224; 262160; 73789588760254480474; 73789588760254743642; 263168; 263168; 263168; 73789588760252391514; 0; 0; 75633094624886084608090; 2097152; 150509160099284837736538; 150509160099284837736538; 140737488355328; 75557863743506509463552; 1152921505680588800; 74876065474398753128448; 74876065474398753128448; 74876065474398753128448; 150509160099284837736538; 150509160099284837736538]%N.
(** The states. *)
Definition cscript_states : list lrstate := [
   mkst [(0, 0, 0x2020e1d1210c3257efdc%N); (1, 0, 0x2020e1d1210c3257efdc%N); (2, 0, 0x2020e1d1210c3257efdc%N); (3, 0, 0x2020e1d1210c3257efdc%N); (4, 0, 0x2020e1d1210c3257efdc%N); (5, 0, 0x2020e1d1210c3257efdc%N); (6, 0, 0x2020e1d1210c3257efdc%N); (7, 0, 0x2020e1d1210c3257efdc%N); (8, 0, 0x2020e1d1210c3257efdc%N); (9, 0, 0x2020e1d1210c3257efdc%N); (10, 0, 0x2020e1d1210c3257efdc%N); (11, 0, 0x2020e1d1210c3257efdc%N); (12, 0, 0x2020e1d1210c3257efdc%N); (15, 0, 0x2020e0d021083253ebcc%N); (16, 0, 0x2020e0d021083253ebcc%N); (17, 0, 0x2020e0d021083253ebcc%N); (18, 0, 0x2020e0d021083253ebcc%N); (19, 0, 0x2020e0d021083253ebcc%N); (20, 0, 0x2020e0d021083253ebcc%N); (21, 0, 0x2020e0d021083253ebcc%N); (22, 0, 0x2020e0d021083253ebcc%N); (23, 0, 0x2020e0d021083253ebcc%N); (24, 0, 0xc090210030536bcc%N); (25, 0, 0xc090210030536bcc%N); (26, 0, 0xc090210030536bcc%N); (27, 0, 0xc090210030536bcc%N); (28, 0, 0xc090210030536bcc%N); (29, 0, 0xc090210030536bcc%N); (30, 0, 0xc090210030536388%N); (31, 0, 0xc090210030536388%N); (32, 0, 0xc090210030536388%N); (33, 0, 0xc090210030536108%N); (34, 0, 0xc090210030536108%N); (35, 0, 0xc090210030536108%N); (36, 0, 0x90210030536108%N); (37, 0, 0x90210030536108%N); (38, 0, 0x90210030536108%N); (39, 0, 0x90210030536108%N); (40, 0, 0x90210030536108%N); (41, 0, 0x80010030522108%N); (42, 0, 0x80010030522108%N); (43, 0, 0x80010030522108%N); (44, 0, 0x30522108%N); (45, 0, 0x30522108%N); (46, 0, 0x30522100%N); (47, 0, 0x30522100%N); (48, 0, 0x30422100%N); (49, 0, 0x30422100%N); (50, 0, 0x30022100%N); (51, 0, 0x30022100%N); (52, 0, 0x20022100%N); (53, 0, 0x20022100%N); (54, 0, 0x2100%N); (55, 0, 0x2100%N); (57, 0, 0x2100%N); (58, 0, 0x2100%N); (59, 0, 0x2100%N); (60, 0, 0x2100%N); (61, 0, 0x2100%N); (62, 0, 0x2100%N); (63, 0, 0x2100%N); (64, 0, 0x2100%N); (65, 0, 0x2100%N); (66, 0, 0x2100%N); (67, 0, 0x1fdf1e2fde97cd20205b%N); (68, 0, 0x1fdf1e2fde97cd20205b%N); (69, 0, 0xfdb0a2646918c002050%N); (70, 0, 0xfdb0a2646918c002050%N); (71, 0, 0xfdb0a2646918c002050%N); (72, 0, 0xfdb0a2646918c002050%N); (73, 0, 0xfdb0a2646918c002050%N); (74, 0, 0xfdb0a2646918c002050%N); (79, 0, 0xfdb0a2646918c002050%N); (80, 0, 0xfdb0a2646918c002050%N); (81, 0, 0xfdb0a2646918c002050%N); (82, 0, 0xfdb0a2646918c002050%N); (83, 0, 0xfdb0a2646918c002050%N); (84, 0, 0xfdb0a2646918c002050%N); (85, 0, 0xfdb0a2646918c002050%N); (86, 0, 0xfdb0a2646918c002050%N); (87, 0, 0xfdb0a2646918c002050%N); (88, 0, 0xfdb0a2646918c002050%N); (89, 0, 0xfdb0a2646918c002050%N); (90, 0, 0xfdb0a2646918c002050%N); (91, 0, 0xfdb0a2646918c002050%N); (92, 0, 0xfdb0a2646918c002050%N); (93, 0, 0xfdb0a2646918c002050%N); (94, 0, 0xfdb0a2646918c002050%N); (95, 0, 0xfdb0a2646918c002050%N); (96, 0, 0xfdb0a2646918c002050%N); (97, 0, 0xfdb0a2646918c002050%N); (98, 0, 0xfdb0a2646918c002050%N); (99, 0, 0xfdb0a2646918c002050%N); (100, 0, 0x400000200000%N); (101, 0, 0x400000200000%N); (115, 0, 0xfdb0a2646918c002050%N); (116, 0, 0xfdb0a2646918c002050%N); (117, 0, 0xfdb0a2646918c002050%N); (118, 0, 0xfdb0a2646918c002050%N); (119, 0, 0xfdb0a2646918c002050%N); (124, 0, 0xfdb0a2646918c002050%N); (125, 0, 0xfdb0a2646918c002050%N); (126, 0, 0xfdb0a2646918c002050%N); (127, 0, 0xfdb0a2646918c002050%N); (186, 0, 0x1fdf1e2fde97cd20205b%N); (187, 0, 0x1fdf1e2fde97cd20205b%N); (188, 0, 0x1fdf1e2fde97cd20205b%N); (189, 0, 0x1fdf1e2fde97cd20205b%N); (190, 0, 0x1fdf1e2fde97cd20205b%N); (191, 0, 0x1fdf1e2fde97cd20205b%N); (192, 0, 0x1fdf1e2fde97cd20205b%N); (193, 0, 0x1fdf1e2fde97cd20205b%N); (194, 0, 0x1fdf1e2fde97cd20205b%N); (195, 0, 0x1fdf1e2fde97cd20205b%N); (200, 0, 0x1fdf1e2fde97cd20205b%N); (201, 0, 0x1fdf1e2fde97cd20205b%N); (202, 0, 0x1fdf1e2fde97cd20205b%N); (203, 0, 0x1fdf1e2fde97cd20205b%N); (204, 0, 0x1fdf1e2fde97cd20205b%N); (205, 0, 0x1fdf1e2fde97cd20205b%N); (206, 0, 0x1fdf1e2fde97cd20205b%N); (207, 0, 0x1fdf1e2fde97cd20205b%N); (208, 0, 0x1fdf1e2fde97cd20205b%N); (209, 0, 0x1fdf1e2fde97cd20205b%N); (210, 0, 0x1fdf1e2fde97cd20205b%N); (211, 0, 0x1fdf1e2fde97cd20205b%N); (212, 0, 0x1fdf1e2fde97cd20205b%N); (213, 0, 0x1fdf1e2fde97cd20205b%N); (216, 0, 0x1fdf1e2fde97cd20205b%N); (217, 0, 0x1fdf1e2fde97cd20205b%N); (218, 0, 0x1fdf1e2fde97cd20205b%N); (219, 0, 0x1fdf1e2fde97cd20205b%N)]
     [(1%N, 1); (3%N, 2); (4%N, 3); (6%N, 4); (13%N, 5); (21%N, 6); (24%N, 7); (26%N, 8); (27%N, 9); (30%N, 10); (31%N, 11); (32%N, 12); (33%N, 13); (34%N, 14); (36%N, 15); (39%N, 16); (41%N, 17); (42%N, 18); (43%N, 19); (44%N, 20); (46%N, 21); (47%N, 22); (48%N, 23); (49%N, 24); (50%N, 25); (51%N, 26); (53%N, 27); (57%N, 28); (58%N, 29); (59%N, 30); (60%N, 31); (64%N, 32); (65%N, 33); (66%N, 34); (67%N, 35); (68%N, 36); (70%N, 37); (71%N, 38); (72%N, 39); (73%N, 40); (74%N, 41); (75%N, 42); (76%N, 43); (1000%N, 70); (1001%N, 69); (1003%N, 80); (1004%N, 47); (1005%N, 68); (1006%N, 44); (1007%N, 73); (1008%N, 71); (1009%N, 56); (1010%N, 45); (1011%N, 57); (1012%N, 63); (1013%N, 66); (1014%N, 67); (1015%N, 49); (1017%N, 46); (1018%N, 58); (1019%N, 52); (1020%N, 54); (1021%N, 53); (1024%N, 75); (1025%N, 79); (1026%N, 77); (1027%N, 76); (1034%N, 55); (1037%N, 78); (1038%N, 62); (1055%N, 59); (1058%N, 74); (1059%N, 48); (1062%N, 72); (1063%N, 64); (1064%N, 65); (1065%N, 60); (1066%N, 61); (1068%N, 50); (1069%N, 51)];
   mkst [(0, 0, 0x2020e1d1210c32dffffc%N); (1, 0, 0x2020e1d1210c32dffffc%N); (2, 0, 0x2020e1d1210c32dffffc%N); (3, 0, 0x2020e1d1210c32dffffc%N); (4, 0, 0x2020e1d1210c32dffffc%N); (5, 0, 0x2020e1d1210c32dffffc%N); (6, 0, 0x2020e1d1210c32dffffc%N); (7, 0, 0x2020e1d1210c32dffffc%N); (8, 0, 0x2020e1d1210c32dffffc%N); (9, 0, 0x2020e1d1210c32dffffc%N); (10, 0, 0x2020e1d1210c32dffffc%N); (11, 0, 0x2020e1d1210c32dffffc%N); (12, 0, 0x2020e1d1210c32dffffc%N); (15, 0, 0x2020e0d0210832dbfbec%N); (16, 0, 0x2020e0d0210832dbfbec%N); (17, 0, 0x2020e0d0210832dbfbec%N); (18, 0, 0x2020e0d0210832dbfbec%N); (18, 1, 0x2020e0d0210832dbfbec%N); (19, 0, 0x2020e0d0210832dbfbec%N); (20, 0, 0x2020e0d0210832dbfbec%N); (21, 0, 0x2020e0d0210832dbfbec%N); (22, 0, 0x2020e0d0210832dbfbec%N); (23, 0, 0x2020e0d0210832dbfbec%N)]
     [(1%N, 1); (3%N, 2); (4%N, 81); (6%N, 4); (24%N, 7); (33%N, 13); (34%N, 14); (43%N, 19); (46%N, 21); (48%N, 23); (51%N, 26); (66%N, 34); (1000%N, 70); (1001%N, 69); (1003%N, 82)];
   mkst [(0, 0, 0x2020e1d1210c32dffffc%N); (1, 0, 0x2020e1d1210c32dffffc%N); (2, 0, 0x2020e1d1210c32dffffc%N); (3, 0, 0x2020e1d1210c32dffffc%N); (4, 0, 0x2020e1d1210c32dffffc%N); (5, 0, 0x2020e1d1210c32dffffc%N); (6, 0, 0x2020e1d1210c32dffffc%N); (7, 0, 0x2020e1d1210c32dffffc%N); (8, 0, 0x2020e1d1210c32dffffc%N); (9, 0, 0x2020e1d1210c32dffffc%N); (10, 0, 0x2020e1d1210c32dffffc%N); (11, 0, 0x2020e1d1210c32dffffc%N); (12, 0, 0x2020e1d1210c32dffffc%N); (15, 0, 0x2020e0d0210832dbfbec%N); (16, 0, 0x2020e0d0210832dbfbec%N); (17, 0, 0x2020e0d0210832dbfbec%N); (18, 0, 0x2020e0d0210832dbfbec%N); (19, 0, 0x2020e0d0210832dbfbec%N); (19, 1, 0x2020e0d0210832dbfbec%N); (20, 0, 0x2020e0d0210832dbfbec%N); (21, 0, 0x2020e0d0210832dbfbec%N); (22, 0, 0x2020e0d0210832dbfbec%N); (23, 0, 0x2020e0d0210832dbfbec%N)]
     [(1%N, 1); (3%N, 2); (4%N, 81); (6%N, 4); (24%N, 7); (33%N, 13); (34%N, 14); (43%N, 19); (46%N, 21); (48%N, 23); (51%N, 26); (66%N, 34); (1000%N, 70); (1001%N, 69); (1003%N, 83)];
   mkst [(0, 0, 0x2020e1d1210c3257cffc%N); (1, 0, 0x2020e1d1210c3257cffc%N); (2, 0, 0x2020e1d1210c3257cffc%N); (3, 0, 0x2020e1d1210c3257cffc%N); (4, 0, 0x2020e1d1210c3257cffc%N); (4, 1, 0x2020e1d1210c32dffffc%N); (5, 0, 0x2020e1d1210c3257cffc%N); (6, 0, 0x2020e1d1210c3257cffc%N); (7, 0, 0x2020e1d1210c3257cffc%N); (8, 0, 0x2020e1d1210c3257cffc%N); (9, 0, 0x2020e1d1210c3257cffc%N); (10, 0, 0x2020e1d1210c3257cffc%N); (11, 0, 0x2020e1d1210c3257cffc%N); (12, 0, 0x2020e1d1210c3257cffc%N); (15, 0, 0x2020e0d021083253cbec%N); (16, 0, 0x2020e0d021083253cbec%N); (17, 0, 0x2020e0d021083253cbec%N); (18, 0, 0x2020e0d021083253cbec%N); (19, 0, 0x2020e0d021083253cbec%N); (20, 0, 0x2020e0d021083253cbec%N); (21, 0, 0x2020e0d021083253cbec%N); (22, 0, 0x2020e0d021083253cbec%N); (23, 0, 0x2020e0d021083253cbec%N); (24, 0, 0xc090210030534bec%N); (25, 0, 0xc090210030534bec%N); (25, 1, 0xc090210030db7bec%N); (26, 0, 0xc090210030534bec%N); (27, 0, 0xc090210030534bec%N); (28, 0, 0xc090210030534bec%N); (29, 0, 0xc090210030534bec%N); (30, 0, 0xc0902100305343a8%N); (31, 0, 0xc0902100305343a8%N); (32, 0, 0xc0902100305343a8%N); (33, 0, 0xc090210030534128%N); (34, 0, 0xc090210030534128%N); (35, 0, 0xc090210030534128%N); (36, 0, 0x90210030534128%N); (37, 0, 0x90210030534128%N); (38, 0, 0x90210030534128%N); (39, 0, 0x90210030534128%N); (40, 0, 0x90210030534128%N); (41, 0, 0x80010030520128%N); (42, 0, 0x80010030520128%N); (43, 0, 0x80010030520128%N); (44, 0, 0x30520128%N); (45, 0, 0x30520128%N); (46, 0, 0x30520120%N); (47, 0, 0x30520120%N); (48, 0, 0x30420120%N); (49, 0, 0x30420120%N); (50, 0, 0x30020120%N); (51, 0, 0x30020120%N); (52, 0, 0x20020120%N); (53, 0, 0x20020120%N); (54, 0, 0x120%N); (55, 0, 0x120%N); (57, 0, 0x120%N); (58, 0, 0x120%N); (59, 0, 0x120%N); (60, 0, 0x120%N); (61, 0, 0x120%N); (62, 0, 0x120%N); (63, 0, 0x120%N); (64, 0, 0x120%N); (65, 0, 0x120%N); (66, 0, 0x120%N); (84, 0, 0xf930824049188040070%N); (85, 0, 0xf930824049188040070%N); (86, 0, 0xf930824049188040070%N); (87, 0, 0xf930824049188040070%N); (88, 0, 0xf930824049188040070%N); (89, 0, 0xf930824049188040070%N); (90, 0, 0xf930824049188040070%N); (91, 0, 0xf930824049188040070%N); (92, 0, 0xf930824049188040070%N); (93, 0, 0xf930824049188040070%N); (94, 0, 0xf930824049188040070%N); (95, 0, 0xf930824049188040070%N); (96, 0, 0xf930824049188040070%N); (97, 0, 0xf930824049188040070%N); (98, 0, 0xf930824049188040070%N); (99, 0, 0xf930824049188040070%N); (100, 0, 0x400000200000%N); (101, 0, 0x400000200000%N); (106, 0, 0xf930824049188040070%N); (107, 0, 0xf930824049188040070%N); (108, 0, 0xf930824049188040070%N); (109, 0, 0xf930824049188040070%N); (115, 0, 0xf930824049188040070%N); (116, 0, 0xf930824049188040070%N); (117, 0, 0xf930824049188040070%N); (118, 0, 0xf930824049188040070%N); (119, 0, 0xf930824049188040070%N); (124, 0, 0xf930824049188040070%N); (125, 0, 0xf930824049188040070%N); (126, 0, 0xf930824049188040070%N); (158, 0, 0x20%N); (159, 0, 0x20%N)]
     [(1%N, 1); (3%N, 2); (4%N, 3); (6%N, 4); (24%N, 7); (27%N, 9); (31%N, 11); (32%N, 12); (33%N, 13); (34%N, 14); (36%N, 15); (39%N, 16); (42%N, 18); (43%N, 19); (46%N, 21); (48%N, 23); (50%N, 25); (51%N, 26); (53%N, 27); (59%N, 30); (64%N, 32); (65%N, 33); (66%N, 34); (68%N, 36); (71%N, 38); (72%N, 39); (73%N, 40); (74%N, 41); (75%N, 42); (1000%N, 70); (1001%N, 69); (1003%N, 80); (1004%N, 47); (1005%N, 68); (1006%N, 44); (1007%N, 73); (1008%N, 71); (1009%N, 56); (1010%N, 45); (1011%N, 57); (1012%N, 63); (1013%N, 66); (1014%N, 67); (1015%N, 49); (1017%N, 46); (1018%N, 84); (1025%N, 89); (1026%N, 77); (1027%N, 76); (1030%N, 86); (1031%N, 85); (1034%N, 55); (1037%N, 88); (1047%N, 87)];
   mkst [(0, 0, 0x2020e1d1210c32dffffc%N); (1, 0, 0x2020e1d1210c32dffffc%N); (2, 0, 0x2020e1d1210c32dffffc%N); (3, 0, 0x2020e1d1210c32dffffc%N); (4, 0, 0x2020e1d1210c32dffffc%N); (5, 0, 0x2020e1d1210c32dffffc%N); (6, 0, 0x2020e1d1210c32dffffc%N); (7, 0, 0x2020e1d1210c32dffffc%N); (8, 0, 0x2020e1d1210c32dffffc%N); (9, 0, 0x2020e1d1210c32dffffc%N); (10, 0, 0x2020e1d1210c32dffffc%N); (11, 0, 0x2020e1d1210c32dffffc%N); (12, 0, 0x2020e1d1210c32dffffc%N); (15, 0, 0x2020e0d0210832dbfbec%N); (16, 0, 0x2020e0d0210832dbfbec%N); (17, 0, 0x2020e0d0210832dbfbec%N); (18, 0, 0x2020e0d0210832dbfbec%N); (19, 0, 0x2020e0d0210832dbfbec%N); (20, 0, 0x2020e0d0210832dbfbec%N); (20, 1, 0x2020e0d0210832dbfbec%N); (21, 0, 0x2020e0d0210832dbfbec%N); (22, 0, 0x2020e0d0210832dbfbec%N); (23, 0, 0x2020e0d0210832dbfbec%N)]
     [(1%N, 1); (3%N, 2); (4%N, 81); (6%N, 4); (24%N, 7); (33%N, 13); (34%N, 14); (43%N, 19); (46%N, 21); (48%N, 23); (51%N, 26); (66%N, 34); (1000%N, 70); (1001%N, 69); (1003%N, 90)];
   mkst [(186, 1, 0x1fdf1e2fded7cda0207b%N)]
     [];
   mkst [(0, 0, 0x2020e1d1210c3257efdc%N); (1, 0, 0x2020e1d1210c3257efdc%N); (2, 0, 0x2020e1d1210c3257efdc%N); (3, 0, 0x2020e1d1210c3257efdc%N); (4, 0, 0x2020e1d1210c3257efdc%N); (5, 0, 0x2020e1d1210c3257efdc%N); (6, 0, 0x2020e1d1210c3257efdc%N); (7, 0, 0x2020e1d1210c3257efdc%N); (8, 0, 0x2020e1d1210c3257efdc%N); (9, 0, 0x2020e1d1210c3257efdc%N); (10, 0, 0x2020e1d1210c3257efdc%N); (11, 0, 0x2020e1d1210c3257efdc%N); (12, 0, 0x2020e1d1210c3257efdc%N); (15, 0, 0x2020e0d021083253ebcc%N); (16, 0, 0x2020e0d021083253ebcc%N); (17, 0, 0x2020e0d021083253ebcc%N); (18, 0, 0x2020e0d021083253ebcc%N); (19, 0, 0x2020e0d021083253ebcc%N); (20, 0, 0x2020e0d021083253ebcc%N); (21, 0, 0x2020e0d021083253ebcc%N); (22, 0, 0x2020e0d021083253ebcc%N); (23, 0, 0x2020e0d021083253ebcc%N); (24, 0, 0xc090210030536bcc%N); (25, 0, 0xc090210030536bcc%N); (26, 0, 0xc090210030536bcc%N); (27, 0, 0xc090210030536bcc%N); (28, 0, 0xc090210030536bcc%N); (29, 0, 0xc090210030536bcc%N); (30, 0, 0xc090210030536388%N); (31, 0, 0xc090210030536388%N); (32, 0, 0xc090210030536388%N); (33, 0, 0xc090210030536108%N); (34, 0, 0xc090210030536108%N); (35, 0, 0xc090210030536108%N); (36, 0, 0x90210030536108%N); (37, 0, 0x90210030536108%N); (38, 0, 0x90210030536108%N); (39, 0, 0x90210030536108%N); (40, 0, 0x90210030536108%N); (41, 0, 0x80010030522108%N); (42, 0, 0x80010030522108%N); (43, 0, 0x80010030522108%N); (44, 0, 0x30522108%N); (45, 0, 0x30522108%N); (46, 0, 0x30522100%N); (47, 0, 0x30522100%N); (48, 0, 0x30422100%N); (49, 0, 0x30422100%N); (50, 0, 0x30022100%N); (51, 0, 0x30022100%N); (52, 0, 0x20022100%N); (53, 0, 0x20022100%N); (54, 0, 0x2100%N); (55, 0, 0x2100%N); (57, 0, 0x2100%N); (58, 0, 0x2100%N); (59, 0, 0x2100%N); (60, 0, 0x2100%N); (61, 0, 0x2100%N); (62, 0, 0x2100%N); (63, 0, 0x2100%N); (64, 0, 0x2100%N); (65, 0, 0x2100%N); (66, 0, 0x2100%N); (67, 0, 0x1fdf1e2fde97cda0205a%N); (68, 0, 0x1fdf1e2fde97cda0205a%N); (69, 0, 0xfdb0a2646918c002050%N); (70, 0, 0xfdb0a2646918c002050%N); (71, 0, 0xfdb0a2646918c002050%N); (72, 0, 0xfdb0a2646918c002050%N); (73, 0, 0xfdb0a2646918c002050%N); (74, 0, 0xfdb0a2646918c002050%N); (79, 0, 0xfdb0a2646918c002050%N); (80, 0, 0xfdb0a2646918c002050%N); (81, 0, 0xfdb0a2646918c002050%N); (82, 0, 0xfdb0a2646918c002050%N); (83, 0, 0xfdb0a2646918c002050%N); (84, 0, 0xfdb0a2646918c002050%N); (85, 0, 0xfdb0a2646918c002050%N); (86, 0, 0xfdb0a2646918c002050%N); (87, 0, 0xfdb0a2646918c002050%N); (88, 0, 0xfdb0a2646918c002050%N); (89, 0, 0xfdb0a2646918c002050%N); (90, 0, 0xfdb0a2646918c002050%N); (91, 0, 0xfdb0a2646918c002050%N); (92, 0, 0xfdb0a2646918c002050%N); (93, 0, 0xfdb0a2646918c002050%N); (94, 0, 0xfdb0a2646918c002050%N); (95, 0, 0xfdb0a2646918c002050%N); (96, 0, 0xfdb0a2646918c002050%N); (97, 0, 0xfdb0a2646918c002050%N); (98, 0, 0xfdb0a2646918c002050%N); (99, 0, 0xfdb0a2646918c002050%N); (100, 0, 0x400000200000%N); (101, 0, 0x400000200000%N); (115, 0, 0xfdb0a2646918c002050%N); (116, 0, 0xfdb0a2646918c002050%N); (117, 0, 0xfdb0a2646918c002050%N); (118, 0, 0xfdb0a2646918c002050%N); (119, 0, 0xfdb0a2646918c002050%N); (124, 0, 0xfdb0a2646918c002050%N); (125, 0, 0xfdb0a2646918c002050%N); (126, 0, 0xfdb0a2646918c002050%N); (127, 0, 0xfdb0a2646918c002050%N); (186, 0, 0x1fdf1e2fde97cda0205a%N); (187, 0, 0x1fdf1e2fde97cda0205a%N); (188, 0, 0x1fdf1e2fde97cda0205a%N); (189, 0, 0x1fdf1e2fde97cda0205a%N); (190, 0, 0x1fdf1e2fde97cda0205a%N); (191, 0, 0x1fdf1e2fde97cda0205a%N); (192, 0, 0x1fdf1e2fde97cda0205a%N); (193, 0, 0x1fdf1e2fde97cda0205a%N); (194, 0, 0x1fdf1e2fde97cda0205a%N); (194, 1, 0x1fdf1e2fded7cda0205b%N); (195, 0, 0x1fdf1e2fde97cda0205a%N); (195, 1, 0x1fdf1e2fded7cda0205b%N); (196, 0, 0x1fdf1e2fde97cda0205a%N); (197, 0, 0x1fdf1e2fde97cda0205a%N); (198, 0, 0x1fdf1e2fde97cda0205a%N); (199, 0, 0x1fdf1e2fde97cda0205a%N); (200, 0, 0x1fdf1e2fde97cda0205a%N); (201, 0, 0x1fdf1e2fde97cda0205a%N); (202, 0, 0x1fdf1e2fde97cda0205a%N); (203, 0, 0x1fdf1e2fde97cda0205a%N); (204, 0, 0x1fdf1e2fde97cda0205a%N); (205, 0, 0x1fdf1e2fde97cda0205a%N); (206, 0, 0x1fdf1e2fde97cda0205a%N); (207, 0, 0x1fdf1e2fde97cda0205a%N); (208, 0, 0x1fdf1e2fde97cda0205a%N); (209, 0, 0x1fdf1e2fde97cda0205a%N)]
     [(1%N, 1); (3%N, 2); (4%N, 3); (6%N, 4); (13%N, 5); (21%N, 6); (23%N, 91); (24%N, 7); (26%N, 8); (27%N, 9); (30%N, 10); (31%N, 11); (32%N, 12); (33%N, 13); (34%N, 14); (36%N, 15); (39%N, 16); (41%N, 17); (42%N, 18); (43%N, 19); (44%N, 20); (46%N, 21); (47%N, 22); (48%N, 23); (49%N, 24); (50%N, 25); (51%N, 26); (53%N, 27); (57%N, 28); (58%N, 29); (59%N, 30); (60%N, 31); (64%N, 32); (65%N, 33); (66%N, 34); (67%N, 35); (68%N, 36); (70%N, 37); (71%N, 38); (72%N, 39); (73%N, 40); (74%N, 41); (75%N, 42); (76%N, 43); (1000%N, 70); (1001%N, 69); (1003%N, 80); (1004%N, 47); (1005%N, 68); (1006%N, 44); (1007%N, 73); (1008%N, 71); (1009%N, 56); (1010%N, 45); (1011%N, 57); (1012%N, 63); (1013%N, 66); (1014%N, 67); (1015%N, 49); (1017%N, 46); (1018%N, 58); (1019%N, 94); (1020%N, 95); (1021%N, 53); (1024%N, 75); (1025%N, 79); (1026%N, 77); (1027%N, 76); (1034%N, 55); (1037%N, 78); (1038%N, 62); (1055%N, 59); (1058%N, 96); (1059%N, 48); (1060%N, 93); (1061%N, 92); (1062%N, 72); (1063%N, 64); (1064%N, 65)];
   mkst [(0, 0, 0x2020e1d1210c32dffffc%N); (1, 0, 0x2020e1d1210c32dffffc%N); (2, 0, 0x2020e1d1210c32dffffc%N); (3, 0, 0x2020e1d1210c32dffffc%N); (4, 0, 0x2020e1d1210c32dffffc%N); (5, 0, 0x2020e1d1210c32dffffc%N); (6, 0, 0x2020e1d1210c32dffffc%N); (7, 0, 0x2020e1d1210c32dffffc%N); (8, 0, 0x2020e1d1210c32dffffc%N); (9, 0, 0x2020e1d1210c32dffffc%N); (10, 0, 0x2020e1d1210c32dffffc%N); (11, 0, 0x2020e1d1210c32dffffc%N); (12, 0, 0x2020e1d1210c32dffffc%N); (15, 0, 0x2020e0d0210832dbfbec%N); (16, 0, 0x2020e0d0210832dbfbec%N); (17, 0, 0x2020e0d0210832dbfbec%N); (18, 0, 0x2020e0d0210832dbfbec%N); (19, 0, 0x2020e0d0210832dbfbec%N); (20, 0, 0x2020e0d0210832dbfbec%N); (21, 0, 0x2020e0d0210832dbfbec%N); (21, 1, 0x2020e0d0210832dbfbec%N); (22, 0, 0x2020e0d0210832dbfbec%N); (23, 0, 0x2020e0d0210832dbfbec%N)]
     [(1%N, 1); (3%N, 2); (4%N, 81); (6%N, 4); (24%N, 7); (33%N, 13); (34%N, 14); (43%N, 19); (46%N, 21); (48%N, 23); (51%N, 26); (66%N, 34); (1000%N, 70); (1001%N, 69); (1003%N, 97)];
   mkst [(82, 1, 0xfdb0a2646918c042170%N)]
     [];
   mkst [(93, 1, 0xfdb0a2646918c043170%N)]
     [];
   mkst [(207, 1, 0x1fdf1e2fded7cda0205b%N)]
     [(13%N, 98)];
   mkst [(85, 1, 0xfdb0a2646918c043170%N)]
     [];
   mkst [(124, 1, 0xfdf0a2f4e978d0c317a%N)]
     [];
   mkst [(3, 1, 0x2020e1d1210c32dffffc%N)]
     [];
   mkst [(0, 0, 0x2020e1d1210c32dffffc%N); (1, 0, 0x2020e1d1210c32dffffc%N); (2, 0, 0x2020e1d1210c32dffffc%N); (3, 0, 0x2020e1d1210c32dffffc%N); (4, 0, 0x2020e1d1210c32dffffc%N); (5, 0, 0x2020e1d1210c32dffffc%N); (6, 0, 0x2020e1d1210c32dffffc%N); (7, 0, 0x2020e1d1210c32dffffc%N); (8, 0, 0x2020e1d1210c32dffffc%N); (9, 0, 0x2020e1d1210c32dffffc%N); (10, 0, 0x2020e1d1210c32dffffc%N); (11, 0, 0x2020e1d1210c32dffffc%N); (12, 0, 0x2020e1d1210c32dffffc%N); (15, 0, 0x2020e0d0210832dbfbec%N); (16, 0, 0x2020e0d0210832dbfbec%N); (17, 0, 0x2020e0d0210832dbfbec%N); (17, 1, 0x2020e0d0210832dbfbec%N); (18, 0, 0x2020e0d0210832dbfbec%N); (19, 0, 0x2020e0d0210832dbfbec%N); (20, 0, 0x2020e0d0210832dbfbec%N); (21, 0, 0x2020e0d0210832dbfbec%N); (22, 0, 0x2020e0d0210832dbfbec%N); (23, 0, 0x2020e0d0210832dbfbec%N)]
     [(1%N, 1); (3%N, 2); (4%N, 81); (6%N, 4); (24%N, 7); (33%N, 13); (34%N, 14); (43%N, 19); (46%N, 21); (48%N, 23); (51%N, 26); (66%N, 34); (1000%N, 70); (1001%N, 69); (1003%N, 99)];
   mkst [(90, 1, 0xfdb0a2646918c043170%N)]
     [];
   mkst [(115, 1, 0xfdb0a2646918c043170%N); (116, 1, 0xfdb0a2646918c043170%N); (117, 1, 0xfdb0a2646918c043170%N); (118, 1, 0xfdb0a2646918c043170%N); (119, 1, 0xfdb0a2646918c043170%N)]
     [(21%N, 100); (46%N, 101)];
   mkst [(80, 1, 0xfdb0a2646918c042170%N)]
     [];
   mkst [(89, 1, 0xfdb0a2646918c043170%N)]
     [];
   mkst [(1, 1, 0x2020e1d1210c32dffffc%N)]
     [];
   mkst [(203, 1, 0x1fdf1e2fded7cda0205b%N); (204, 1, 0x1fdf1e2fded7cda0205b%N); (205, 1, 0x1fdf1e2fded7cda0205b%N); (206, 1, 0x1fdf1e2fded7cda0205b%N)]
     [(4%N, 102)];
   mkst [(2, 1, 0x2020e1d1210c32dffffc%N)]
     [];
   mkst [(200, 1, 0x1fdf1e2fded7cda0205b%N); (201, 1, 0x1fdf1e2fded7cda0205b%N)]
     [(4%N, 103)];
   mkst [(0, 0, 0x2020e1d1210c32dffffc%N); (1, 0, 0x2020e1d1210c32dffffc%N); (2, 0, 0x2020e1d1210c32dffffc%N); (3, 0, 0x2020e1d1210c32dffffc%N); (4, 0, 0x2020e1d1210c32dffffc%N); (5, 0, 0x2020e1d1210c32dffffc%N); (6, 0, 0x2020e1d1210c32dffffc%N); (7, 0, 0x2020e1d1210c32dffffc%N); (8, 0, 0x2020e1d1210c32dffffc%N); (9, 0, 0x2020e1d1210c32dffffc%N); (10, 0, 0x2020e1d1210c32dffffc%N); (11, 0, 0x2020e1d1210c32dffffc%N); (12, 0, 0x2020e1d1210c32dffffc%N); (15, 0, 0x2020e0d0210832dbfbec%N); (16, 0, 0x2020e0d0210832dbfbec%N); (16, 1, 0x2020e0d0210832dbfbec%N); (17, 0, 0x2020e0d0210832dbfbec%N); (18, 0, 0x2020e0d0210832dbfbec%N); (19, 0, 0x2020e0d0210832dbfbec%N); (20, 0, 0x2020e0d0210832dbfbec%N); (21, 0, 0x2020e0d0210832dbfbec%N); (22, 0, 0x2020e0d0210832dbfbec%N); (23, 0, 0x2020e0d0210832dbfbec%N)]
     [(1%N, 1); (3%N, 2); (4%N, 81); (6%N, 4); (24%N, 7); (33%N, 13); (34%N, 14); (43%N, 19); (46%N, 21); (48%N, 23); (51%N, 26); (66%N, 34); (1000%N, 70); (1001%N, 69); (1003%N, 104)];
   mkst [(127, 1, 0xfdb0a2646918c042170%N)]
     [];
   mkst [(87, 1, 0xfdb0a2646918c043170%N)]
     [];
   mkst [(0, 1, 0x2020e1d1210c32dffffc%N)]
     [];
   mkst [(88, 1, 0xfdb0a2646918c043170%N)]
     [];
   mkst [(83, 1, 0xfdb0a2646918c042170%N)]
     [];
   mkst [(193, 1, 0x1fdf1e2fded7cda0205b%N)]
     [(13%N, 105)];
   mkst [(125, 1, 0xfdf0a2f4e978d0c317a%N)]
     [];
   mkst [(0, 0, 0x2020e1d1210c3257efdc%N); (1, 0, 0x2020e1d1210c3257efdc%N); (2, 0, 0x2020e1d1210c3257efdc%N); (3, 0, 0x2020e1d1210c3257efdc%N); (4, 0, 0x2020e1d1210c3257efdc%N); (5, 0, 0x2020e1d1210c3257efdc%N); (6, 0, 0x2020e1d1210c3257efdc%N); (7, 0, 0x2020e1d1210c3257efdc%N); (8, 0, 0x2020e1d1210c3257efdc%N); (9, 0, 0x2020e1d1210c3257efdc%N); (10, 0, 0x2020e1d1210c3257efdc%N); (11, 0, 0x2020e1d1210c3257efdc%N); (12, 0, 0x2020e1d1210c3257efdc%N); (15, 0, 0x2020e0d021083253ebcc%N); (16, 0, 0x2020e0d021083253ebcc%N); (17, 0, 0x2020e0d021083253ebcc%N); (18, 0, 0x2020e0d021083253ebcc%N); (19, 0, 0x2020e0d021083253ebcc%N); (20, 0, 0x2020e0d021083253ebcc%N); (21, 0, 0x2020e0d021083253ebcc%N); (22, 0, 0x2020e0d021083253ebcc%N); (23, 0, 0x2020e0d021083253ebcc%N); (24, 0, 0xc090210030536bcc%N); (25, 0, 0xc090210030536bcc%N); (26, 0, 0xc090210030536bcc%N); (27, 0, 0xc090210030536bcc%N); (28, 0, 0xc090210030536bcc%N); (29, 0, 0xc090210030536bcc%N); (30, 0, 0xc090210030536388%N); (31, 0, 0xc090210030536388%N); (32, 0, 0xc090210030536388%N); (33, 0, 0xc090210030536108%N); (34, 0, 0xc090210030536108%N); (35, 0, 0xc090210030536108%N); (36, 0, 0x90210030536108%N); (37, 0, 0x90210030536108%N); (38, 0, 0x90210030536108%N); (39, 0, 0x90210030536108%N); (40, 0, 0x90210030536108%N); (41, 0, 0x80010030522108%N); (42, 0, 0x80010030522108%N); (43, 0, 0x80010030522108%N); (44, 0, 0x30522108%N); (45, 0, 0x30522108%N); (46, 0, 0x30522100%N); (47, 0, 0x30522100%N); (48, 0, 0x30422100%N); (49, 0, 0x30422100%N); (50, 0, 0x30022100%N); (51, 0, 0x30022100%N); (52, 0, 0x20022100%N); (53, 0, 0x20022100%N); (54, 0, 0x2100%N); (55, 0, 0x2100%N); (57, 0, 0x2100%N); (58, 0, 0x2100%N); (59, 0, 0x2100%N); (60, 0, 0x2100%N); (61, 0, 0x2100%N); (62, 0, 0x2100%N); (63, 0, 0x2100%N); (64, 0, 0x2100%N); (65, 0, 0x2100%N); (66, 0, 0x2100%N); (208, 1, 0x1fdf1e2fded7cda0205b%N); (209, 1, 0x1fdf1e2fded7cda0205b%N)]
     [(1%N, 1); (3%N, 2); (4%N, 3); (6%N, 4); (13%N, 106); (24%N, 7); (33%N, 13); (34%N, 14); (43%N, 19); (46%N, 21); (48%N, 23); (51%N, 26); (66%N, 34); (1000%N, 70); (1001%N, 69); (1003%N, 80); (1004%N, 47); (1005%N, 68); (1006%N, 44); (1007%N, 73); (1008%N, 71); (1009%N, 56); (1010%N, 45); (1011%N, 57); (1012%N, 63); (1013%N, 66); (1014%N, 67); (1015%N, 49); (1017%N, 46); (1018%N, 107)];
   mkst [(86, 1, 0xfdb0a2646918c043170%N)]
     [];
   mkst [(91, 1, 0xfdb0a2646918c043170%N)]
     [];
   mkst [(0, 0, 0x2020e1d1210c32dffffc%N); (1, 0, 0x2020e1d1210c32dffffc%N); (2, 0, 0x2020e1d1210c32dffffc%N); (3, 0, 0x2020e1d1210c32dffffc%N); (4, 0, 0x2020e1d1210c32dffffc%N); (5, 0, 0x2020e1d1210c32dffffc%N); (6, 0, 0x2020e1d1210c32dffffc%N); (7, 0, 0x2020e1d1210c32dffffc%N); (8, 0, 0x2020e1d1210c32dffffc%N); (9, 0, 0x2020e1d1210c32dffffc%N); (10, 0, 0x2020e1d1210c32dffffc%N); (11, 0, 0x2020e1d1210c32dffffc%N); (12, 0, 0x2020e1d1210c32dffffc%N); (15, 0, 0x2020e0d0210832dbfbec%N); (16, 0, 0x2020e0d0210832dbfbec%N); (17, 0, 0x2020e0d0210832dbfbec%N); (18, 0, 0x2020e0d0210832dbfbec%N); (19, 0, 0x2020e0d0210832dbfbec%N); (20, 0, 0x2020e0d0210832dbfbec%N); (21, 0, 0x2020e0d0210832dbfbec%N); (22, 0, 0x2020e0d0210832dbfbec%N); (22, 1, 0x2020e0d0210832dbfbec%N); (23, 0, 0x2020e0d0210832dbfbec%N); (23, 1, 0x2020e0d0210832dbfbec%N)]
     [(1%N, 1); (3%N, 2); (4%N, 108); (6%N, 4); (24%N, 7); (33%N, 13); (34%N, 14); (43%N, 19); (46%N, 21); (48%N, 23); (51%N, 26); (66%N, 34); (1000%N, 70); (1001%N, 69); (1003%N, 109)];
   mkst [(81, 1, 0xfdb0a2646918c042170%N)]
     [];
   mkst [(100, 1, 0x400000200000%N)]
     [];
   mkst [(79, 1, 0xfdb0a2646918c042170%N)]
     [];
   mkst [(96, 1, 0xfdb0a2646918c043170%N)]
     [];
   mkst [(101, 1, 0x400000200000%N)]
     [];
   mkst [(92, 1, 0xfdb0a2646918c043170%N)]
     [];
   mkst [(84, 1, 0xfdb0a2646918c043170%N)]
     [];
   mkst [(126, 1, 0xfdf0a2f4e978d0c317a%N)]
     [];
   mkst [(202, 1, 0x1fdf1e2fded7cda0205b%N)]
     [(4%N, 110)];
   mkst [(31, 1, 0xc090210030db73a8%N); (32, 1, 0xc090210030db73a8%N); (33, 1, 0xc090210030db7128%N)]
     [(7%N, 111); (9%N, 112)];
   mkst [(45, 1, 0x30da3128%N); (46, 1, 0x30da3120%N)]
     [(3%N, 113)];
   mkst [(65, 1, 0x83120%N)]
     [];
   mkst [(26, 1, 0xc090210030db7bec%N)]
     [];
   mkst [(189, 1, 0x1fdf1e2fded7cda0205b%N)]
     [];
   mkst [(57, 1, 0x883120%N)]
     [];
   mkst [(218, 1, 0x1fdf1e2fde97cd20205b%N)]
     [];
   mkst [(0, 0, 0x2020e1d1210c3257efdc%N); (1, 0, 0x2020e1d1210c3257efdc%N); (2, 0, 0x2020e1d1210c3257efdc%N); (3, 0, 0x2020e1d1210c3257efdc%N); (4, 0, 0x2020e1d1210c3257efdc%N); (5, 0, 0x2020e1d1210c3257efdc%N); (6, 0, 0x2020e1d1210c3257efdc%N); (7, 0, 0x2020e1d1210c3257efdc%N); (8, 0, 0x2020e1d1210c3257efdc%N); (9, 0, 0x2020e1d1210c3257efdc%N); (10, 0, 0x2020e1d1210c3257efdc%N); (11, 0, 0x2020e1d1210c3257efdc%N); (12, 0, 0x2020e1d1210c3257efdc%N); (15, 0, 0x2020e0d021083253ebcc%N); (16, 0, 0x2020e0d021083253ebcc%N); (17, 0, 0x2020e0d021083253ebcc%N); (18, 0, 0x2020e0d021083253ebcc%N); (19, 0, 0x2020e0d021083253ebcc%N); (20, 0, 0x2020e0d021083253ebcc%N); (21, 0, 0x2020e0d021083253ebcc%N); (22, 0, 0x2020e0d021083253ebcc%N); (23, 0, 0x2020e0d021083253ebcc%N); (24, 0, 0xc090210030536bcc%N); (25, 0, 0xc090210030536bcc%N); (26, 0, 0xc090210030536bcc%N); (27, 0, 0xc090210030536bcc%N); (28, 0, 0xc090210030536bcc%N); (29, 0, 0xc090210030536bcc%N); (30, 0, 0xc090210030536388%N); (31, 0, 0xc090210030536388%N); (32, 0, 0xc090210030536388%N); (33, 0, 0xc090210030536108%N); (34, 0, 0xc090210030536108%N); (35, 0, 0xc090210030536108%N); (36, 0, 0x90210030536108%N); (37, 0, 0x90210030536108%N); (38, 0, 0x90210030536108%N); (39, 0, 0x90210030536108%N); (40, 0, 0x90210030536108%N); (41, 0, 0x80010030522108%N); (42, 0, 0x80010030522108%N); (43, 0, 0x80010030522108%N); (44, 0, 0x30522108%N); (45, 0, 0x30522108%N); (46, 0, 0x30522100%N); (47, 0, 0x30522100%N); (48, 0, 0x30422100%N); (49, 0, 0x30422100%N); (50, 0, 0x30022100%N); (51, 0, 0x30022100%N); (52, 0, 0x20022100%N); (53, 0, 0x20022100%N); (54, 0, 0x2100%N); (55, 0, 0x2100%N); (57, 0, 0x2100%N); (58, 0, 0x2100%N); (59, 0, 0x2100%N); (60, 0, 0x2100%N); (61, 0, 0x2100%N); (62, 0, 0x2100%N); (63, 0, 0x2100%N); (64, 0, 0x2100%N); (65, 0, 0x2100%N); (66, 0, 0x2100%N); (67, 0, 0x1fdf1e2fde97cd20205b%N); (68, 0, 0x1fdf1e2fde97cd20205b%N); (69, 0, 0xfdb0a2646918c002050%N); (70, 0, 0xfdb0a2646918c002050%N); (71, 0, 0xfdb0a2646918c002050%N); (72, 0, 0xfdb0a2646918c002050%N); (73, 0, 0xfdb0a2646918c002050%N); (74, 0, 0xfdb0a2646918c002050%N); (79, 0, 0xfdb0a2646918c002050%N); (80, 0, 0xfdb0a2646918c002050%N); (81, 0, 0xfdb0a2646918c002050%N); (82, 0, 0xfdb0a2646918c002050%N); (83, 0, 0xfdb0a2646918c002050%N); (84, 0, 0xfdb0a2646918c002050%N); (85, 0, 0xfdb0a2646918c002050%N); (86, 0, 0xfdb0a2646918c002050%N); (87, 0, 0xfdb0a2646918c002050%N); (88, 0, 0xfdb0a2646918c002050%N); (89, 0, 0xfdb0a2646918c002050%N); (90, 0, 0xfdb0a2646918c002050%N); (91, 0, 0xfdb0a2646918c002050%N); (92, 0, 0xfdb0a2646918c002050%N); (93, 0, 0xfdb0a2646918c002050%N); (94, 0, 0xfdb0a2646918c002050%N); (95, 0, 0xfdb0a2646918c002050%N); (96, 0, 0xfdb0a2646918c002050%N); (97, 0, 0xfdb0a2646918c002050%N); (98, 0, 0xfdb0a2646918c002050%N); (99, 0, 0xfdb0a2646918c002050%N); (100, 0, 0x400000200000%N); (101, 0, 0x400000200000%N); (115, 0, 0xfdb0a2646918c002050%N); (116, 0, 0xfdb0a2646918c002050%N); (117, 0, 0xfdb0a2646918c002050%N); (118, 0, 0xfdb0a2646918c002050%N); (119, 0, 0xfdb0a2646918c002050%N); (124, 0, 0xfdb0a2646918c002050%N); (125, 0, 0xfdb0a2646918c002050%N); (126, 0, 0xfdb0a2646918c002050%N); (127, 0, 0xfdb0a2646918c002050%N); (186, 0, 0x1fdf1e2fde97cd20205b%N); (187, 0, 0x1fdf1e2fde97cd20205b%N); (188, 0, 0x1fdf1e2fde97cd20205b%N); (189, 0, 0x1fdf1e2fde97cd20205b%N); (190, 0, 0x1fdf1e2fde97cd20205b%N); (191, 0, 0x1fdf1e2fde97cd20205b%N); (192, 0, 0x1fdf1e2fde97cd20205b%N); (193, 0, 0x1fdf1e2fde97cd20205b%N); (194, 0, 0x1fdf1e2fde97cd20205b%N); (195, 0, 0x1fdf1e2fde97cd20205b%N); (200, 0, 0x1fdf1e2fde97cd20205b%N); (201, 0, 0x1fdf1e2fde97cd20205b%N); (202, 0, 0x1fdf1e2fde97cd20205b%N); (203, 0, 0x1fdf1e2fde97cd20205b%N); (204, 0, 0x1fdf1e2fde97cd20205b%N); (205, 0, 0x1fdf1e2fde97cd20205b%N); (206, 0, 0x1fdf1e2fde97cd20205b%N); (207, 0, 0x1fdf1e2fde97cd20205b%N); (208, 0, 0x1fdf1e2fde97cd20205b%N); (209, 0, 0x1fdf1e2fde97cd20205b%N); (210, 0, 0x1fdf1e2fde97cd20205b%N); (211, 0, 0x1fdf1e2fde97cd20205b%N); (212, 0, 0x1fdf1e2fde97cd20205b%N); (213, 0, 0x1fdf1e2fde97cd20205b%N); (216, 0, 0x1fdf1e2fde97cd20205b%N); (217, 0, 0x1fdf1e2fde97cd20205b%N); (219, 1, 0x1fdf1e2fde97cd20205b%N)]
     [(1%N, 1); (3%N, 2); (4%N, 3); (6%N, 4); (13%N, 5); (21%N, 6); (24%N, 7); (26%N, 8); (27%N, 9); (30%N, 10); (31%N, 11); (32%N, 12); (33%N, 13); (34%N, 14); (36%N, 15); (39%N, 16); (41%N, 17); (42%N, 18); (43%N, 19); (44%N, 20); (46%N, 21); (47%N, 22); (48%N, 23); (49%N, 24); (50%N, 25); (51%N, 26); (53%N, 27); (57%N, 28); (58%N, 29); (59%N, 30); (60%N, 31); (64%N, 32); (65%N, 33); (66%N, 34); (67%N, 35); (68%N, 36); (70%N, 37); (71%N, 38); (72%N, 39); (73%N, 40); (74%N, 41); (75%N, 42); (76%N, 43); (1000%N, 70); (1001%N, 69); (1003%N, 80); (1004%N, 47); (1005%N, 68); (1006%N, 44); (1007%N, 73); (1008%N, 71); (1009%N, 56); (1010%N, 45); (1011%N, 57); (1012%N, 63); (1013%N, 66); (1014%N, 67); (1015%N, 49); (1017%N, 46); (1018%N, 58); (1019%N, 52); (1020%N, 54); (1021%N, 53); (1024%N, 75); (1025%N, 79); (1026%N, 77); (1027%N, 76); (1034%N, 55); (1037%N, 78); (1038%N, 62); (1055%N, 59); (1058%N, 74); (1059%N, 48); (1062%N, 72); (1063%N, 64); (1064%N, 65); (1065%N, 60); (1066%N, 61); (1068%N, 114)];
   mkst [(211, 1, 0x1fdf1e2fde97cd20205b%N)]
     [];
   mkst [(69, 1, 0xfdb0a2646918c042170%N)]
     [];
   mkst [(67, 1, 0x1fdf1e2fde97cd20205b%N); (68, 1, 0x1fdf1e2fde97cd20205b%N); (70, 1, 0xfdb0a2646918c002050%N); (71, 0, 0xfdb0a2646918c002050%N); (72, 0, 0xfdb0a2646918c002050%N); (73, 0, 0xfdb0a2646918c002050%N); (74, 0, 0xfdb0a2646918c002050%N); (75, 0, 0x2100%N); (76, 0, 0x2100%N); (77, 0, 0x2100%N); (78, 0, 0x2100%N); (79, 0, 0xfdb0a2646918c002050%N); (80, 0, 0xfdb0a2646918c002050%N); (81, 0, 0xfdb0a2646918c002050%N); (82, 0, 0xfdb0a2646918c002050%N); (83, 0, 0xfdb0a2646918c002050%N); (84, 0, 0xfdb0a2646918c002050%N); (85, 0, 0xfdb0a2646918c002050%N); (86, 0, 0xfdb0a2646918c002050%N); (87, 0, 0xfdb0a2646918c002050%N); (88, 0, 0xfdb0a2646918c002050%N); (89, 0, 0xfdb0a2646918c002050%N); (90, 0, 0xfdb0a2646918c002050%N); (91, 0, 0xfdb0a2646918c002050%N); (92, 0, 0xfdb0a2646918c002050%N); (93, 0, 0xfdb0a2646918c002050%N); (94, 0, 0xfdb0a2646918c002050%N); (95, 0, 0xfdb0a2646918c002050%N); (96, 0, 0xfdb0a2646918c002050%N); (97, 0, 0xfdb0a2646918c002050%N); (98, 0, 0xfdb0a2646918c002050%N); (99, 0, 0xfdb0a2646918c002050%N); (100, 0, 0x400000200000%N); (101, 0, 0x400000200000%N); (115, 0, 0xfdb0a2646918c002050%N); (116, 0, 0xfdb0a2646918c002050%N); (117, 0, 0xfdb0a2646918c002050%N); (118, 0, 0xfdb0a2646918c002050%N); (119, 0, 0xfdb0a2646918c002050%N); (124, 0, 0xfdb0a2646918c002050%N); (125, 0, 0xfdb0a2646918c002050%N); (126, 0, 0xfdb0a2646918c002050%N); (127, 0, 0xfdb0a2646918c002050%N); (128, 0, 0xfdb0a2606918c20a100%N); (129, 0, 0xfdb0a2606918c20a100%N); (130, 0, 0xfdb0a2606918c24a110%N); (131, 0, 0xfdb0a2606918c24a110%N); (132, 0, 0xfdb0a2606918c24a110%N); (133, 0, 0xfdb0a2606918c24a110%N); (134, 0, 0xfdb0a2606918c24a110%N); (135, 0, 0xfdb0a2606918c24a110%N); (136, 0, 0xfdb0a2606918c24a110%N); (137, 0, 0xfdb0a2606918c24a110%N); (138, 0, 0xfdb0a2606918c24a110%N); (139, 0, 0xfdb0a2606918c24a110%N); (140, 0, 0xfdb0a2606918c24a110%N); (141, 0, 0xfdb0a2606918c24a110%N); (142, 0, 0xfdb0a2606918c24a110%N); (143, 0, 0x400000000010%N); (144, 0, 0x400000000010%N); (145, 0, 0x400000000010%N); (146, 0, 0x400000000010%N); (212, 1, 0x1fdf1e2fde97cd20205b%N); (213, 1, 0x1fdf1e2fde97cd20205b%N)]
     [(4%N, 115); (6%N, 116); (13%N, 117); (26%N, 8); (27%N, 9); (31%N, 11); (32%N, 12); (36%N, 15); (39%N, 16); (41%N, 17); (42%N, 18); (46%N, 118); (49%N, 24); (50%N, 25); (53%N, 27); (57%N, 28); (59%N, 30); (64%N, 32); (65%N, 33); (67%N, 35); (68%N, 36); (70%N, 37); (71%N, 38); (72%N, 39); (73%N, 40); (74%N, 41); (75%N, 42); (1021%N, 119); (1022%N, 123); (1023%N, 122); (1024%N, 75); (1025%N, 79); (1026%N, 77); (1027%N, 76); (1034%N, 55); (1037%N, 78); (1038%N, 62); (1039%N, 120); (1040%N, 121); (1041%N, 124)];
   mkst [(95, 1, 0xfdb0a2646918c043170%N)]
     [];
   mkst [(42, 1, 0x80010030da3128%N); (43, 1, 0x80010030da3128%N); (44, 1, 0x30da3128%N)]
     [(40%N, 125); (55%N, 126)];
   mkst [(47, 1, 0x30da3120%N); (48, 1, 0x30ca3120%N)]
     [(20%N, 127)];
   mkst [(66, 1, 0x2100%N); (187, 1, 0x1fdf1e2fded7cda0207b%N)]
     [(8%N, 128); (13%N, 129)];
   mkst [(188, 1, 0x1fdf1e2fded7cda0205b%N)]
     [];
   mkst [(216, 1, 0x1fdf1e2fde97cd20205b%N)]
     [];
   mkst [(210, 1, 0x1fdf1e2fde97cd20205b%N)]
     [];
   mkst [(74, 1, 0xfdb0a2646918c042170%N)]
     [];
   mkst [(49, 1, 0x30ca3120%N); (50, 1, 0x308a3120%N)]
     [(22%N, 130)];
   mkst [(191, 1, 0x1fdf1e2fded7cda0205b%N)]
     [];
   mkst [(192, 1, 0x1fdf1e2fded7cda0205b%N)]
     [];
   mkst [(51, 1, 0x308a3120%N); (52, 1, 0x208a3120%N)]
     [(28%N, 131)];
   mkst [(53, 1, 0x208a3120%N); (54, 1, 0x883120%N); (55, 1, 0x883120%N)]
     [(17%N, 132); (29%N, 133)];
   mkst [(27, 1, 0xc090210030db7bec%N); (28, 1, 0xc090210030db7bec%N); (29, 1, 0xc090210030db7bec%N); (30, 1, 0xc090210030db73a8%N)]
     [(2%N, 134); (6%N, 135); (11%N, 136)];
   mkst [(6, 1, 0x2020e1d1210c32dffffc%N); (7, 1, 0x2020e1d1210c32dffffc%N); (8, 1, 0x2020e1d1210c32dffffc%N); (9, 1, 0x2020e1d1210c32dffffc%N); (10, 1, 0x2020e1d1210c32dffffc%N); (11, 1, 0x2020e1d1210c32dffffc%N); (12, 1, 0x2020e1d1210c32dffffc%N); (15, 1, 0x2020e0d0210832dbfbec%N)]
     [(4%N, 137); (10%N, 138); (18%N, 139); (34%N, 140); (48%N, 141); (56%N, 142)];
   mkst [(5, 1, 0x2020e1d1210c32dffffc%N)]
     [];
   mkst [(37, 1, 0x90210030db7128%N); (38, 1, 0x90210030db7128%N); (39, 1, 0x90210030db7128%N); (40, 1, 0x90210030db7128%N); (41, 1, 0x80010030da3128%N)]
     [(14%N, 143); (16%N, 144); (45%N, 145); (52%N, 146)];
   mkst [(190, 1, 0x1fdf1e2fded7cda0205b%N)]
     [];
   mkst [(34, 1, 0xc090210030db7128%N); (35, 1, 0xc090210030db7128%N); (36, 1, 0x90210030db7128%N)]
     [(62%N, 147); (63%N, 148)];
   mkst [(217, 1, 0x1fdf1e2fde97cd20205b%N)]
     [];
   mkst [(71, 1, 0xfdb0a2646918c042170%N)]
     [];
   mkst [(97, 1, 0xfdb0a2646918c043170%N); (98, 1, 0xfdb0a2646918c043170%N); (99, 1, 0xfdb0a2646918c043170%N)]
     [(21%N, 149); (46%N, 150)];
   mkst [(94, 1, 0xfdb0a2646918c043170%N)]
     [];
   mkst [(73, 1, 0xfdb0a2646918c042170%N)]
     [];
   mkst [(72, 1, 0xfdb0a2646918c042170%N)]
     [];
   mkst [(24, 1, 0xc090210030db7bec%N); (58, 1, 0x883120%N); (59, 1, 0x883120%N); (60, 1, 0x883120%N); (61, 1, 0x883120%N); (62, 1, 0x883120%N); (63, 1, 0x883120%N); (64, 1, 0x883120%N)]
     [(15%N, 151); (25%N, 152); (35%N, 153); (54%N, 154); (61%N, 155); (69%N, 156); (77%N, 157)];
   mkst [(0, 0, 0x2020e1d1210c3257cffc%N); (1, 0, 0x2020e1d1210c3257cffc%N); (2, 0, 0x2020e1d1210c3257cffc%N); (3, 0, 0x2020e1d1210c3257cffc%N); (4, 0, 0x2020e1d1210c3257cffc%N); (4, 1, 0x2020e1d1210c32dffffc%N); (5, 0, 0x2020e1d1210c3257cffc%N); (6, 0, 0x2020e1d1210c3257cffc%N); (7, 0, 0x2020e1d1210c3257cffc%N); (8, 0, 0x2020e1d1210c3257cffc%N); (9, 0, 0x2020e1d1210c3257cffc%N); (10, 0, 0x2020e1d1210c3257cffc%N); (11, 0, 0x2020e1d1210c3257cffc%N); (12, 0, 0x2020e1d1210c3257cffc%N); (15, 0, 0x2020e0d021083253cbec%N); (16, 0, 0x2020e0d021083253cbec%N); (17, 0, 0x2020e0d021083253cbec%N); (18, 0, 0x2020e0d021083253cbec%N); (19, 0, 0x2020e0d021083253cbec%N); (20, 0, 0x2020e0d021083253cbec%N); (21, 0, 0x2020e0d021083253cbec%N); (22, 0, 0x2020e0d021083253cbec%N); (23, 0, 0x2020e0d021083253cbec%N); (24, 0, 0xc090210030534bec%N); (25, 0, 0xc090210030534bec%N); (26, 0, 0xc090210030534bec%N); (27, 0, 0xc090210030534bec%N); (28, 0, 0xc090210030534bec%N); (29, 0, 0xc090210030534bec%N); (30, 0, 0xc0902100305343a8%N); (31, 0, 0xc0902100305343a8%N); (32, 0, 0xc0902100305343a8%N); (33, 0, 0xc090210030534128%N); (34, 0, 0xc090210030534128%N); (35, 0, 0xc090210030534128%N); (36, 0, 0x90210030534128%N); (37, 0, 0x90210030534128%N); (38, 0, 0x90210030534128%N); (39, 0, 0x90210030534128%N); (40, 0, 0x90210030534128%N); (41, 0, 0x80010030520128%N); (42, 0, 0x80010030520128%N); (43, 0, 0x80010030520128%N); (44, 0, 0x30520128%N); (45, 0, 0x30520128%N); (46, 0, 0x30520120%N); (47, 0, 0x30520120%N); (48, 0, 0x30420120%N); (49, 0, 0x30420120%N); (50, 0, 0x30020120%N); (51, 0, 0x30020120%N); (52, 0, 0x20020120%N); (53, 0, 0x20020120%N); (54, 0, 0x120%N); (55, 0, 0x120%N); (57, 0, 0x120%N); (58, 0, 0x120%N); (59, 0, 0x120%N); (60, 0, 0x120%N); (61, 0, 0x120%N); (62, 0, 0x120%N); (63, 0, 0x120%N); (64, 0, 0x120%N); (65, 0, 0x120%N); (66, 0, 0x120%N)]
     [(1%N, 1); (3%N, 2); (4%N, 3); (6%N, 4); (24%N, 7); (33%N, 13); (34%N, 14); (43%N, 19); (46%N, 21); (48%N, 23); (51%N, 26); (66%N, 34); (1000%N, 70); (1001%N, 69); (1003%N, 80); (1004%N, 47); (1005%N, 68); (1006%N, 44); (1007%N, 73); (1008%N, 71); (1009%N, 56); (1010%N, 45); (1011%N, 57); (1012%N, 63); (1013%N, 66); (1014%N, 67); (1015%N, 49); (1017%N, 46); (1018%N, 84)];
   mkst [(18, 2, 0x2020e0d0210832dbfbec%N)]
     [];
   mkst [(19, 2, 0x2020e0d0210832dbfbec%N)]
     [];
   mkst [(4, 2, 0x2020e1d1210c32dffffc%N); (66, 1, 0x120%N)]
     [(5%N, 158); (8%N, 128)];
   mkst [(106, 1, 0xf930824449188043070%N)]
     [];
   mkst [(84, 0, 0xf930824049188040070%N); (85, 0, 0xf930824049188040070%N); (86, 0, 0xf930824049188040070%N); (87, 0, 0xf930824049188040070%N); (88, 0, 0xf930824049188040070%N); (89, 0, 0xf930824049188040070%N); (90, 0, 0xf930824049188040070%N); (91, 0, 0xf930824049188040070%N); (92, 0, 0xf930824049188040070%N); (93, 0, 0xf930824049188040070%N); (94, 0, 0xf930824049188040070%N); (95, 0, 0xf930824049188040070%N); (96, 0, 0xf930824049188040070%N); (97, 0, 0xf930824049188040070%N); (98, 0, 0xf930824049188040070%N); (99, 0, 0xf930824049188040070%N); (100, 0, 0x400000200000%N); (101, 0, 0x400000200000%N); (107, 1, 0xf930824049188040070%N); (108, 0, 0xf930824049188040070%N); (109, 0, 0xf930824049188040070%N); (115, 0, 0xf930824049188040070%N); (116, 0, 0xf930824049188040070%N); (117, 0, 0xf930824049188040070%N); (118, 0, 0xf930824049188040070%N); (119, 0, 0xf930824049188040070%N); (124, 0, 0xf930824049188040070%N); (125, 0, 0xf930824049188040070%N); (126, 0, 0xf930824049188040070%N); (143, 0, 0x40030%N); (144, 0, 0x40030%N); (145, 0, 0x40030%N); (146, 0, 0x40030%N); (158, 1, 0x20%N); (159, 1, 0x20%N); (160, 0, 0x20%N); (161, 0, 0x20%N); (162, 0, 0x20%N); (163, 0, 0x40030%N); (164, 0, 0x40030%N); (165, 0, 0x40030%N); (166, 0, 0x40030%N); (167, 0, 0x40030%N); (168, 0, 0x40030%N); (169, 0, 0x40030%N); (170, 0, 0x40030%N); (171, 0, 0x40030%N); (172, 0, 0x40030%N); (173, 0, 0x40030%N)]
     [(4%N, 159); (6%N, 116); (18%N, 160); (27%N, 9); (31%N, 11); (32%N, 12); (36%N, 15); (39%N, 16); (42%N, 18); (50%N, 25); (53%N, 27); (59%N, 30); (64%N, 32); (65%N, 33); (68%N, 36); (71%N, 38); (72%N, 39); (73%N, 40); (74%N, 41); (75%N, 42); (1025%N, 89); (1026%N, 77); (1027%N, 76); (1031%N, 164); (1034%N, 55); (1037%N, 88); (1041%N, 163); (1048%N, 161); (1049%N, 162)];
   mkst [(25, 2, 0xc090210030db7bec%N)]
     [(5%N, 165)];
   mkst [(109, 1, 0xf930824449188043070%N)]
     [];
   mkst [(108, 1, 0xf930824449188043070%N)]
     [];
   mkst [(20, 2, 0x2020e0d0210832dbfbec%N)]
     [];
   mkst [(194, 2, 0x1fdf1e2fded7cda0205b%N)]
     [];
   mkst [(196, 1, 0x1fdf1e2fde97cda0205a%N)]
     [];
   mkst [(0, 0, 0x2020e1d1210c3257efdc%N); (1, 0, 0x2020e1d1210c3257efdc%N); (2, 0, 0x2020e1d1210c3257efdc%N); (3, 0, 0x2020e1d1210c3257efdc%N); (4, 0, 0x2020e1d1210c3257efdc%N); (5, 0, 0x2020e1d1210c3257efdc%N); (6, 0, 0x2020e1d1210c3257efdc%N); (7, 0, 0x2020e1d1210c3257efdc%N); (8, 0, 0x2020e1d1210c3257efdc%N); (9, 0, 0x2020e1d1210c3257efdc%N); (10, 0, 0x2020e1d1210c3257efdc%N); (11, 0, 0x2020e1d1210c3257efdc%N); (12, 0, 0x2020e1d1210c3257efdc%N); (15, 0, 0x2020e0d021083253ebcc%N); (16, 0, 0x2020e0d021083253ebcc%N); (17, 0, 0x2020e0d021083253ebcc%N); (18, 0, 0x2020e0d021083253ebcc%N); (19, 0, 0x2020e0d021083253ebcc%N); (20, 0, 0x2020e0d021083253ebcc%N); (21, 0, 0x2020e0d021083253ebcc%N); (22, 0, 0x2020e0d021083253ebcc%N); (23, 0, 0x2020e0d021083253ebcc%N); (24, 0, 0xc090210030536bcc%N); (25, 0, 0xc090210030536bcc%N); (26, 0, 0xc090210030536bcc%N); (27, 0, 0xc090210030536bcc%N); (28, 0, 0xc090210030536bcc%N); (29, 0, 0xc090210030536bcc%N); (30, 0, 0xc090210030536388%N); (31, 0, 0xc090210030536388%N); (32, 0, 0xc090210030536388%N); (33, 0, 0xc090210030536108%N); (34, 0, 0xc090210030536108%N); (35, 0, 0xc090210030536108%N); (36, 0, 0x90210030536108%N); (37, 0, 0x90210030536108%N); (38, 0, 0x90210030536108%N); (39, 0, 0x90210030536108%N); (40, 0, 0x90210030536108%N); (41, 0, 0x80010030522108%N); (42, 0, 0x80010030522108%N); (43, 0, 0x80010030522108%N); (44, 0, 0x30522108%N); (45, 0, 0x30522108%N); (46, 0, 0x30522100%N); (47, 0, 0x30522100%N); (48, 0, 0x30422100%N); (49, 0, 0x30422100%N); (50, 0, 0x30022100%N); (51, 0, 0x30022100%N); (52, 0, 0x20022100%N); (53, 0, 0x20022100%N); (54, 0, 0x2100%N); (55, 0, 0x2100%N); (57, 0, 0x2100%N); (58, 0, 0x2100%N); (59, 0, 0x2100%N); (60, 0, 0x2100%N); (61, 0, 0x2100%N); (62, 0, 0x2100%N); (63, 0, 0x2100%N); (64, 0, 0x2100%N); (65, 0, 0x2100%N); (66, 0, 0x2100%N); (67, 0, 0x1fdf1e2fde97cda0205a%N); (68, 0, 0x1fdf1e2fde97cda0205a%N); (69, 0, 0xfdb0a2646918c002050%N); (70, 0, 0xfdb0a2646918c002050%N); (71, 0, 0xfdb0a2646918c002050%N); (72, 0, 0xfdb0a2646918c002050%N); (73, 0, 0xfdb0a2646918c002050%N); (74, 0, 0xfdb0a2646918c002050%N); (79, 0, 0xfdb0a2646918c002050%N); (80, 0, 0xfdb0a2646918c002050%N); (81, 0, 0xfdb0a2646918c002050%N); (82, 0, 0xfdb0a2646918c002050%N); (83, 0, 0xfdb0a2646918c002050%N); (84, 0, 0xfdb0a2646918c002050%N); (85, 0, 0xfdb0a2646918c002050%N); (86, 0, 0xfdb0a2646918c002050%N); (87, 0, 0xfdb0a2646918c002050%N); (88, 0, 0xfdb0a2646918c002050%N); (89, 0, 0xfdb0a2646918c002050%N); (90, 0, 0xfdb0a2646918c002050%N); (91, 0, 0xfdb0a2646918c002050%N); (92, 0, 0xfdb0a2646918c002050%N); (93, 0, 0xfdb0a2646918c002050%N); (94, 0, 0xfdb0a2646918c002050%N); (95, 0, 0xfdb0a2646918c002050%N); (96, 0, 0xfdb0a2646918c002050%N); (97, 0, 0xfdb0a2646918c002050%N); (98, 0, 0xfdb0a2646918c002050%N); (99, 0, 0xfdb0a2646918c002050%N); (100, 0, 0x400000200000%N); (101, 0, 0x400000200000%N); (115, 0, 0xfdb0a2646918c002050%N); (116, 0, 0xfdb0a2646918c002050%N); (117, 0, 0xfdb0a2646918c002050%N); (118, 0, 0xfdb0a2646918c002050%N); (119, 0, 0xfdb0a2646918c002050%N); (124, 0, 0xfdb0a2646918c002050%N); (125, 0, 0xfdb0a2646918c002050%N); (126, 0, 0xfdb0a2646918c002050%N); (127, 0, 0xfdb0a2646918c002050%N); (186, 0, 0x1fdf1e2fde97cda0205a%N); (187, 0, 0x1fdf1e2fde97cda0205a%N); (188, 0, 0x1fdf1e2fde97cda0205a%N); (189, 0, 0x1fdf1e2fde97cda0205a%N); (190, 0, 0x1fdf1e2fde97cda0205a%N); (191, 0, 0x1fdf1e2fde97cda0205a%N); (192, 0, 0x1fdf1e2fde97cda0205a%N); (193, 0, 0x1fdf1e2fde97cda0205a%N); (194, 0, 0x1fdf1e2fde97cda0205a%N); (195, 0, 0x1fdf1e2fde97cda0205a%N); (195, 2, 0x1fdf1e2fded7cda0205b%N); (197, 1, 0x1fdf1e2fde97cda0205a%N); (198, 0, 0x1fdf1e2fde97cda0205a%N); (199, 0, 0x1fdf1e2fde97cda0205a%N); (200, 0, 0x1fdf1e2fde97cda0205a%N); (201, 0, 0x1fdf1e2fde97cda0205a%N); (202, 0, 0x1fdf1e2fde97cda0205a%N); (203, 0, 0x1fdf1e2fde97cda0205a%N); (204, 0, 0x1fdf1e2fde97cda0205a%N); (205, 0, 0x1fdf1e2fde97cda0205a%N); (206, 0, 0x1fdf1e2fde97cda0205a%N); (207, 0, 0x1fdf1e2fde97cda0205a%N); (208, 0, 0x1fdf1e2fde97cda0205a%N); (209, 0, 0x1fdf1e2fde97cda0205a%N)]
     [(1%N, 1); (3%N, 2); (4%N, 3); (6%N, 4); (13%N, 5); (21%N, 6); (23%N, 166); (24%N, 7); (26%N, 8); (27%N, 9); (30%N, 10); (31%N, 11); (32%N, 12); (33%N, 13); (34%N, 14); (36%N, 15); (39%N, 16); (41%N, 17); (42%N, 18); (43%N, 19); (44%N, 20); (46%N, 21); (47%N, 22); (48%N, 23); (49%N, 24); (50%N, 25); (51%N, 26); (53%N, 27); (57%N, 28); (58%N, 29); (59%N, 30); (60%N, 31); (64%N, 32); (65%N, 33); (66%N, 34); (67%N, 35); (68%N, 36); (70%N, 37); (71%N, 38); (72%N, 39); (73%N, 40); (74%N, 41); (75%N, 42); (76%N, 43); (1000%N, 70); (1001%N, 69); (1003%N, 80); (1004%N, 47); (1005%N, 68); (1006%N, 44); (1007%N, 73); (1008%N, 71); (1009%N, 56); (1010%N, 45); (1011%N, 57); (1012%N, 63); (1013%N, 66); (1014%N, 67); (1015%N, 49); (1017%N, 46); (1018%N, 58); (1019%N, 94); (1020%N, 95); (1021%N, 53); (1024%N, 75); (1025%N, 79); (1026%N, 77); (1027%N, 76); (1034%N, 55); (1037%N, 78); (1038%N, 62); (1055%N, 59); (1058%N, 96); (1059%N, 48); (1061%N, 167); (1062%N, 72); (1063%N, 64); (1064%N, 65)];
   mkst [(198, 1, 0x1fdf1e2fde97cda0205a%N)]
     [];
   mkst [(67, 1, 0x1fdf1e2fde97cda0205a%N); (68, 1, 0x1fdf1e2fde97cda0205a%N); (70, 1, 0xfdb0a2646918c002050%N); (71, 0, 0xfdb0a2646918c002050%N); (72, 0, 0xfdb0a2646918c002050%N); (73, 0, 0xfdb0a2646918c002050%N); (74, 0, 0xfdb0a2646918c002050%N); (75, 0, 0x2100%N); (76, 0, 0x2100%N); (77, 0, 0x2100%N); (78, 0, 0x2100%N); (79, 0, 0xfdb0a2646918c002050%N); (80, 0, 0xfdb0a2646918c002050%N); (81, 0, 0xfdb0a2646918c002050%N); (82, 0, 0xfdb0a2646918c002050%N); (83, 0, 0xfdb0a2646918c002050%N); (84, 0, 0xfdb0a2646918c002050%N); (85, 0, 0xfdb0a2646918c002050%N); (86, 0, 0xfdb0a2646918c002050%N); (87, 0, 0xfdb0a2646918c002050%N); (88, 0, 0xfdb0a2646918c002050%N); (89, 0, 0xfdb0a2646918c002050%N); (90, 0, 0xfdb0a2646918c002050%N); (91, 0, 0xfdb0a2646918c002050%N); (92, 0, 0xfdb0a2646918c002050%N); (93, 0, 0xfdb0a2646918c002050%N); (94, 0, 0xfdb0a2646918c002050%N); (95, 0, 0xfdb0a2646918c002050%N); (96, 0, 0xfdb0a2646918c002050%N); (97, 0, 0xfdb0a2646918c002050%N); (98, 0, 0xfdb0a2646918c002050%N); (99, 0, 0xfdb0a2646918c002050%N); (100, 0, 0x400000200000%N); (101, 0, 0x400000200000%N); (115, 0, 0xfdb0a2646918c002050%N); (116, 0, 0xfdb0a2646918c002050%N); (117, 0, 0xfdb0a2646918c002050%N); (118, 0, 0xfdb0a2646918c002050%N); (119, 0, 0xfdb0a2646918c002050%N); (124, 0, 0xfdb0a2646918c002050%N); (125, 0, 0xfdb0a2646918c002050%N); (126, 0, 0xfdb0a2646918c002050%N); (127, 0, 0xfdb0a2646918c002050%N); (128, 0, 0xa100%N); (129, 0, 0xa100%N); (130, 0, 0x4a110%N); (131, 0, 0x4a110%N); (132, 0, 0x4a110%N); (133, 0, 0x4a110%N); (134, 0, 0x4a110%N); (135, 0, 0x4a110%N); (136, 0, 0x4a110%N); (137, 0, 0x4a110%N); (138, 0, 0x4a110%N); (139, 0, 0x4a110%N); (140, 0, 0x4a110%N); (141, 0, 0x4a110%N); (142, 0, 0x4a110%N); (143, 0, 0x400000000010%N); (144, 0, 0x400000000010%N); (145, 0, 0x400000000010%N); (146, 0, 0x400000000010%N)]
     [(4%N, 115); (6%N, 116); (13%N, 117); (26%N, 8); (27%N, 9); (31%N, 11); (32%N, 12); (36%N, 15); (39%N, 16); (41%N, 17); (42%N, 18); (46%N, 118); (49%N, 24); (50%N, 25); (53%N, 27); (57%N, 28); (59%N, 30); (64%N, 32); (65%N, 33); (67%N, 35); (68%N, 36); (70%N, 37); (71%N, 38); (72%N, 39); (73%N, 40); (74%N, 41); (75%N, 42); (1021%N, 119); (1022%N, 123); (1023%N, 122); (1024%N, 75); (1025%N, 79); (1026%N, 77); (1027%N, 76); (1034%N, 55); (1037%N, 78); (1038%N, 62); (1039%N, 168); (1040%N, 121); (1041%N, 124)];
   mkst [(199, 1, 0x1fdf1e2fde97cda0205a%N)]
     [];
   mkst [(21, 2, 0x2020e0d0210832dbfbec%N)]
     [];
   mkst [(207, 2, 0x1fdf1e2fded7cda0205b%N)]
     [];
   mkst [(17, 2, 0x2020e0d0210832dbfbec%N)]
     [];
   mkst [(115, 2, 0xfdb0a2646918c043170%N); (117, 2, 0xfdb0a2646918c043170%N); (120, 0, 0x800100%N); (121, 0, 0x800100%N); (122, 0, 0x800100%N); (123, 0, 0x800100%N)]
     [(46%N, 169); (1035%N, 171); (1036%N, 170)];
   mkst [(116, 2, 0xfdb0a2646918c043170%N); (118, 2, 0xfdb0a2646918c043170%N); (119, 2, 0xfdb0a2646918c043170%N)]
     [(21%N, 172)];
   mkst [(0, 0, 0x2020e1d1210c3257efdc%N); (1, 0, 0x2020e1d1210c3257efdc%N); (2, 0, 0x2020e1d1210c3257efdc%N); (3, 0, 0x2020e1d1210c3257efdc%N); (4, 0, 0x2020e1d1210c3257efdc%N); (5, 0, 0x2020e1d1210c3257efdc%N); (6, 0, 0x2020e1d1210c3257efdc%N); (7, 0, 0x2020e1d1210c3257efdc%N); (8, 0, 0x2020e1d1210c3257efdc%N); (9, 0, 0x2020e1d1210c3257efdc%N); (10, 0, 0x2020e1d1210c3257efdc%N); (11, 0, 0x2020e1d1210c3257efdc%N); (12, 0, 0x2020e1d1210c3257efdc%N); (15, 0, 0x2020e0d021083253ebcc%N); (16, 0, 0x2020e0d021083253ebcc%N); (17, 0, 0x2020e0d021083253ebcc%N); (18, 0, 0x2020e0d021083253ebcc%N); (19, 0, 0x2020e0d021083253ebcc%N); (20, 0, 0x2020e0d021083253ebcc%N); (21, 0, 0x2020e0d021083253ebcc%N); (22, 0, 0x2020e0d021083253ebcc%N); (23, 0, 0x2020e0d021083253ebcc%N); (24, 0, 0xc090210030536bcc%N); (25, 0, 0xc090210030536bcc%N); (26, 0, 0xc090210030536bcc%N); (27, 0, 0xc090210030536bcc%N); (28, 0, 0xc090210030536bcc%N); (29, 0, 0xc090210030536bcc%N); (30, 0, 0xc090210030536388%N); (31, 0, 0xc090210030536388%N); (32, 0, 0xc090210030536388%N); (33, 0, 0xc090210030536108%N); (34, 0, 0xc090210030536108%N); (35, 0, 0xc090210030536108%N); (36, 0, 0x90210030536108%N); (37, 0, 0x90210030536108%N); (38, 0, 0x90210030536108%N); (39, 0, 0x90210030536108%N); (40, 0, 0x90210030536108%N); (41, 0, 0x80010030522108%N); (42, 0, 0x80010030522108%N); (43, 0, 0x80010030522108%N); (44, 0, 0x30522108%N); (45, 0, 0x30522108%N); (46, 0, 0x30522100%N); (47, 0, 0x30522100%N); (48, 0, 0x30422100%N); (49, 0, 0x30422100%N); (50, 0, 0x30022100%N); (51, 0, 0x30022100%N); (52, 0, 0x20022100%N); (53, 0, 0x20022100%N); (54, 0, 0x2100%N); (55, 0, 0x2100%N); (57, 0, 0x2100%N); (58, 0, 0x2100%N); (59, 0, 0x2100%N); (60, 0, 0x2100%N); (61, 0, 0x2100%N); (62, 0, 0x2100%N); (63, 0, 0x2100%N); (64, 0, 0x2100%N); (65, 0, 0x2100%N); (66, 0, 0x2100%N); (67, 0, 0x4000948060100205a%N); (68, 0, 0x4000948060100205a%N); (69, 0, 0xfdb0a2646918c002050%N); (70, 0, 0xfdb0a2646918c002050%N); (71, 0, 0xfdb0a2646918c002050%N); (72, 0, 0xfdb0a2646918c002050%N); (73, 0, 0xfdb0a2646918c002050%N); (74, 0, 0xfdb0a2646918c002050%N); (79, 0, 0xfdb0a2646918c002050%N); (80, 0, 0xfdb0a2646918c002050%N); (81, 0, 0xfdb0a2646918c002050%N); (82, 0, 0xfdb0a2646918c002050%N); (83, 0, 0xfdb0a2646918c002050%N); (84, 0, 0xfdb0a2646918c002050%N); (85, 0, 0xfdb0a2646918c002050%N); (86, 0, 0xfdb0a2646918c002050%N); (87, 0, 0xfdb0a2646918c002050%N); (88, 0, 0xfdb0a2646918c002050%N); (89, 0, 0xfdb0a2646918c002050%N); (90, 0, 0xfdb0a2646918c002050%N); (91, 0, 0xfdb0a2646918c002050%N); (92, 0, 0xfdb0a2646918c002050%N); (93, 0, 0xfdb0a2646918c002050%N); (94, 0, 0xfdb0a2646918c002050%N); (95, 0, 0xfdb0a2646918c002050%N); (96, 0, 0xfdb0a2646918c002050%N); (97, 0, 0xfdb0a2646918c002050%N); (98, 0, 0xfdb0a2646918c002050%N); (99, 0, 0xfdb0a2646918c002050%N); (100, 0, 0x400000200000%N); (101, 0, 0x400000200000%N); (115, 0, 0xfdb0a2646918c002050%N); (116, 0, 0xfdb0a2646918c002050%N); (117, 0, 0xfdb0a2646918c002050%N); (118, 0, 0xfdb0a2646918c002050%N); (119, 0, 0xfdb0a2646918c002050%N); (124, 0, 0xfdb0a2646918c002050%N); (125, 0, 0xfdb0a2646918c002050%N); (126, 0, 0xfdb0a2646918c002050%N); (127, 0, 0xfdb0a2646918c002050%N); (186, 0, 0x4000948060100205a%N); (187, 0, 0x4000948060100205a%N); (203, 2, 0x1fdf1e2fded7cda0205b%N); (204, 2, 0x1fdf1e2fded7cda0205b%N); (205, 2, 0x1fdf1e2fded7cda0205b%N); (206, 2, 0x1fdf1e2fded7cda0205b%N)]
     [(1%N, 1); (3%N, 2); (4%N, 3); (6%N, 4); (13%N, 5); (24%N, 7); (26%N, 8); (27%N, 9); (31%N, 11); (32%N, 12); (33%N, 13); (34%N, 14); (36%N, 15); (39%N, 16); (41%N, 17); (42%N, 18); (43%N, 19); (46%N, 21); (48%N, 23); (49%N, 24); (50%N, 25); (51%N, 26); (53%N, 27); (57%N, 28); (59%N, 30); (64%N, 32); (65%N, 33); (66%N, 34); (67%N, 35); (68%N, 36); (70%N, 37); (71%N, 38); (72%N, 39); (73%N, 40); (74%N, 41); (75%N, 42); (1000%N, 70); (1001%N, 69); (1003%N, 80); (1004%N, 47); (1005%N, 68); (1006%N, 44); (1007%N, 73); (1008%N, 71); (1009%N, 56); (1010%N, 45); (1011%N, 57); (1012%N, 63); (1013%N, 66); (1014%N, 67); (1015%N, 49); (1017%N, 46); (1018%N, 58); (1019%N, 173); (1020%N, 95); (1021%N, 53); (1024%N, 75); (1025%N, 79); (1026%N, 77); (1027%N, 76); (1034%N, 55); (1037%N, 78); (1038%N, 62); (1055%N, 174)];
   mkst [(0, 0, 0x2020e1d1210c3257cffc%N); (1, 0, 0x2020e1d1210c3257cffc%N); (2, 0, 0x2020e1d1210c3257cffc%N); (3, 0, 0x2020e1d1210c3257cffc%N); (4, 0, 0x2020e1d1210c3257cffc%N); (5, 0, 0x2020e1d1210c3257cffc%N); (6, 0, 0x2020e1d1210c3257cffc%N); (7, 0, 0x2020e1d1210c3257cffc%N); (8, 0, 0x2020e1d1210c3257cffc%N); (9, 0, 0x2020e1d1210c3257cffc%N); (10, 0, 0x2020e1d1210c3257cffc%N); (11, 0, 0x2020e1d1210c3257cffc%N); (12, 0, 0x2020e1d1210c3257cffc%N); (15, 0, 0x2020e0d021083253cbec%N); (16, 0, 0x2020e0d021083253cbec%N); (17, 0, 0x2020e0d021083253cbec%N); (18, 0, 0x2020e0d021083253cbec%N); (19, 0, 0x2020e0d021083253cbec%N); (20, 0, 0x2020e0d021083253cbec%N); (21, 0, 0x2020e0d021083253cbec%N); (22, 0, 0x2020e0d021083253cbec%N); (23, 0, 0x2020e0d021083253cbec%N); (24, 0, 0xc090210030534bec%N); (25, 0, 0xc090210030534bec%N); (26, 0, 0xc090210030534bec%N); (27, 0, 0xc090210030534bec%N); (28, 0, 0xc090210030534bec%N); (29, 0, 0xc090210030534bec%N); (30, 0, 0xc0902100305343a8%N); (31, 0, 0xc0902100305343a8%N); (32, 0, 0xc0902100305343a8%N); (33, 0, 0xc090210030534128%N); (34, 0, 0xc090210030534128%N); (35, 0, 0xc090210030534128%N); (36, 0, 0x90210030534128%N); (37, 0, 0x90210030534128%N); (38, 0, 0x90210030534128%N); (39, 0, 0x90210030534128%N); (40, 0, 0x90210030534128%N); (41, 0, 0x80010030520128%N); (42, 0, 0x80010030520128%N); (43, 0, 0x80010030520128%N); (44, 0, 0x30520128%N); (45, 0, 0x30520128%N); (46, 0, 0x30520120%N); (47, 0, 0x30520120%N); (48, 0, 0x30420120%N); (49, 0, 0x30420120%N); (50, 0, 0x30020120%N); (51, 0, 0x30020120%N); (52, 0, 0x20020120%N); (53, 0, 0x20020120%N); (54, 0, 0x120%N); (55, 0, 0x120%N); (57, 0, 0x120%N); (58, 0, 0x120%N); (59, 0, 0x120%N); (60, 0, 0x120%N); (61, 0, 0x120%N); (62, 0, 0x120%N); (63, 0, 0x120%N); (64, 0, 0x120%N); (65, 0, 0x120%N); (66, 0, 0x120%N); (200, 2, 0x1fdf1e2fded7cda0205b%N); (201, 2, 0x1fdf1e2fded7cda0205b%N)]
     [(1%N, 1); (3%N, 2); (4%N, 3); (6%N, 4); (24%N, 7); (33%N, 13); (34%N, 14); (43%N, 19); (46%N, 21); (48%N, 23); (51%N, 26); (66%N, 34); (1000%N, 70); (1001%N, 69); (1003%N, 80); (1004%N, 47); (1005%N, 68); (1006%N, 44); (1007%N, 73); (1008%N, 71); (1009%N, 56); (1010%N, 45); (1011%N, 57); (1012%N, 63); (1013%N, 66); (1014%N, 67); (1015%N, 49); (1017%N, 46); (1018%N, 175)];
   mkst [(16, 2, 0x2020e0d0210832dbfbec%N)]
     [];
   mkst [(193, 2, 0x1fdf1e2fded7cda0205b%N)]
     [];
   mkst [(208, 2, 0x1fdf1e2fded7cda0205b%N)]
     [];
   mkst [(66, 1, 0x2100%N); (209, 2, 0x1fdf1e2fded7cda0205b%N)]
     [(8%N, 128); (13%N, 176)];
   mkst [(0, 0, 0x2020e1d1210c3257cffc%N); (1, 0, 0x2020e1d1210c3257cffc%N); (2, 0, 0x2020e1d1210c3257cffc%N); (3, 0, 0x2020e1d1210c3257cffc%N); (4, 0, 0x2020e1d1210c3257cffc%N); (4, 1, 0x2020e1d1210c32dffffc%N); (5, 0, 0x2020e1d1210c3257cffc%N); (6, 0, 0x2020e1d1210c3257cffc%N); (7, 0, 0x2020e1d1210c3257cffc%N); (8, 0, 0x2020e1d1210c3257cffc%N); (9, 0, 0x2020e1d1210c3257cffc%N); (10, 0, 0x2020e1d1210c3257cffc%N); (11, 0, 0x2020e1d1210c3257cffc%N); (12, 0, 0x2020e1d1210c3257cffc%N); (15, 0, 0x2020e0d021083253cbec%N); (16, 0, 0x2020e0d021083253cbec%N); (17, 0, 0x2020e0d021083253cbec%N); (18, 0, 0x2020e0d021083253cbec%N); (19, 0, 0x2020e0d021083253cbec%N); (20, 0, 0x2020e0d021083253cbec%N); (21, 0, 0x2020e0d021083253cbec%N); (22, 0, 0x2020e0d021083253cbec%N); (23, 0, 0x2020e0d021083253cbec%N); (23, 2, 0x2020e0d0210832dbfbec%N); (24, 0, 0xc090210030534bec%N); (25, 0, 0xc090210030534bec%N); (26, 0, 0xc090210030534bec%N); (27, 0, 0xc090210030534bec%N); (28, 0, 0xc090210030534bec%N); (29, 0, 0xc090210030534bec%N); (30, 0, 0xc0902100305343a8%N); (31, 0, 0xc0902100305343a8%N); (32, 0, 0xc0902100305343a8%N); (33, 0, 0xc090210030534128%N); (34, 0, 0xc090210030534128%N); (35, 0, 0xc090210030534128%N); (36, 0, 0x90210030534128%N); (37, 0, 0x90210030534128%N); (38, 0, 0x90210030534128%N); (39, 0, 0x90210030534128%N); (40, 0, 0x90210030534128%N); (41, 0, 0x80010030520128%N); (42, 0, 0x80010030520128%N); (43, 0, 0x80010030520128%N); (44, 0, 0x30520128%N); (45, 0, 0x30520128%N); (46, 0, 0x30520120%N); (47, 0, 0x30520120%N); (48, 0, 0x30420120%N); (49, 0, 0x30420120%N); (50, 0, 0x30020120%N); (51, 0, 0x30020120%N); (52, 0, 0x20020120%N); (53, 0, 0x20020120%N); (54, 0, 0x120%N); (55, 0, 0x120%N); (57, 0, 0x120%N); (58, 0, 0x120%N); (59, 0, 0x120%N); (60, 0, 0x120%N); (61, 0, 0x120%N); (62, 0, 0x120%N); (63, 0, 0x120%N); (64, 0, 0x120%N); (65, 0, 0x120%N); (66, 0, 0x120%N); (84, 0, 0xf930824049188040070%N); (85, 0, 0xf930824049188040070%N); (86, 0, 0xf930824049188040070%N); (87, 0, 0xf930824049188040070%N); (88, 0, 0xf930824049188040070%N); (89, 0, 0xf930824049188040070%N); (90, 0, 0xf930824049188040070%N); (91, 0, 0xf930824049188040070%N); (92, 0, 0xf930824049188040070%N); (93, 0, 0xf930824049188040070%N); (94, 0, 0xf930824049188040070%N); (95, 0, 0xf930824049188040070%N); (96, 0, 0xf930824049188040070%N); (97, 0, 0xf930824049188040070%N); (98, 0, 0xf930824049188040070%N); (99, 0, 0xf930824049188040070%N); (100, 0, 0x400000200000%N); (101, 0, 0x400000200000%N); (106, 0, 0xf930824049188040070%N); (107, 0, 0xf930824049188040070%N); (108, 0, 0xf930824049188040070%N); (109, 0, 0xf930824049188040070%N); (115, 0, 0xf930824049188040070%N); (116, 0, 0xf930824049188040070%N); (117, 0, 0xf930824049188040070%N); (118, 0, 0xf930824049188040070%N); (119, 0, 0xf930824049188040070%N); (124, 0, 0xf930824049188040070%N); (125, 0, 0xf930824049188040070%N); (126, 0, 0xf930824049188040070%N); (158, 0, 0x20%N); (159, 0, 0x20%N)]
     [(1%N, 1); (3%N, 2); (4%N, 3); (6%N, 4); (24%N, 7); (27%N, 9); (31%N, 11); (32%N, 12); (33%N, 13); (34%N, 14); (36%N, 15); (39%N, 16); (42%N, 18); (43%N, 19); (46%N, 21); (48%N, 23); (50%N, 25); (51%N, 26); (53%N, 27); (59%N, 30); (64%N, 32); (65%N, 33); (66%N, 34); (68%N, 36); (71%N, 38); (72%N, 39); (73%N, 40); (74%N, 41); (75%N, 42); (1000%N, 70); (1001%N, 69); (1003%N, 80); (1004%N, 47); (1005%N, 68); (1006%N, 44); (1007%N, 73); (1008%N, 71); (1009%N, 56); (1010%N, 45); (1011%N, 57); (1012%N, 63); (1013%N, 66); (1014%N, 67); (1015%N, 49); (1017%N, 46); (1018%N, 84); (1025%N, 89); (1026%N, 77); (1027%N, 76); (1030%N, 86); (1031%N, 85); (1034%N, 55); (1037%N, 88); (1047%N, 177)];
   mkst [(22, 2, 0x2020e0d0210832dbfbec%N)]
     [];
   mkst [(0, 0, 0x2020e1d1210c3257cffc%N); (1, 0, 0x2020e1d1210c3257cffc%N); (2, 0, 0x2020e1d1210c3257cffc%N); (3, 0, 0x2020e1d1210c3257cffc%N); (4, 0, 0x2020e1d1210c3257cffc%N); (5, 0, 0x2020e1d1210c3257cffc%N); (6, 0, 0x2020e1d1210c3257cffc%N); (7, 0, 0x2020e1d1210c3257cffc%N); (8, 0, 0x2020e1d1210c3257cffc%N); (9, 0, 0x2020e1d1210c3257cffc%N); (10, 0, 0x2020e1d1210c3257cffc%N); (11, 0, 0x2020e1d1210c3257cffc%N); (12, 0, 0x2020e1d1210c3257cffc%N); (15, 0, 0x2020e0d021083253cbec%N); (16, 0, 0x2020e0d021083253cbec%N); (17, 0, 0x2020e0d021083253cbec%N); (18, 0, 0x2020e0d021083253cbec%N); (19, 0, 0x2020e0d021083253cbec%N); (20, 0, 0x2020e0d021083253cbec%N); (21, 0, 0x2020e0d021083253cbec%N); (22, 0, 0x2020e0d021083253cbec%N); (23, 0, 0x2020e0d021083253cbec%N); (24, 0, 0xc090210030534bec%N); (25, 0, 0xc090210030534bec%N); (26, 0, 0xc090210030534bec%N); (27, 0, 0xc090210030534bec%N); (28, 0, 0xc090210030534bec%N); (29, 0, 0xc090210030534bec%N); (30, 0, 0xc0902100305343a8%N); (31, 0, 0xc0902100305343a8%N); (32, 0, 0xc0902100305343a8%N); (33, 0, 0xc090210030534128%N); (34, 0, 0xc090210030534128%N); (35, 0, 0xc090210030534128%N); (36, 0, 0x90210030534128%N); (37, 0, 0x90210030534128%N); (38, 0, 0x90210030534128%N); (39, 0, 0x90210030534128%N); (40, 0, 0x90210030534128%N); (41, 0, 0x80010030520128%N); (42, 0, 0x80010030520128%N); (43, 0, 0x80010030520128%N); (44, 0, 0x30520128%N); (45, 0, 0x30520128%N); (46, 0, 0x30520120%N); (47, 0, 0x30520120%N); (48, 0, 0x30420120%N); (49, 0, 0x30420120%N); (50, 0, 0x30020120%N); (51, 0, 0x30020120%N); (52, 0, 0x20020120%N); (53, 0, 0x20020120%N); (54, 0, 0x120%N); (55, 0, 0x120%N); (57, 0, 0x120%N); (58, 0, 0x120%N); (59, 0, 0x120%N); (60, 0, 0x120%N); (61, 0, 0x120%N); (62, 0, 0x120%N); (63, 0, 0x120%N); (64, 0, 0x120%N); (65, 0, 0x120%N); (66, 0, 0x120%N); (202, 2, 0x1fdf1e2fded7cda0205b%N)]
     [(1%N, 1); (3%N, 2); (4%N, 3); (6%N, 4); (24%N, 7); (33%N, 13); (34%N, 14); (43%N, 19); (46%N, 21); (48%N, 23); (51%N, 26); (66%N, 34); (1000%N, 70); (1001%N, 69); (1003%N, 80); (1004%N, 47); (1005%N, 68); (1006%N, 44); (1007%N, 73); (1008%N, 71); (1009%N, 56); (1010%N, 45); (1011%N, 57); (1012%N, 63); (1013%N, 66); (1014%N, 67); (1015%N, 49); (1017%N, 46); (1018%N, 178)];
   mkst [(0, 0, 0xc191210430df7ffc%N); (1, 0, 0xc191210430df7ffc%N); (2, 0, 0xc191210430df7ffc%N); (3, 0, 0xc191210430df7ffc%N); (4, 0, 0xc191210430df7ffc%N); (5, 0, 0xc191210430df7ffc%N); (6, 0, 0xc191210430df7ffc%N); (7, 0, 0xc191210430df7ffc%N); (8, 0, 0xc191210430df7ffc%N); (9, 0, 0xc191210430df7ffc%N); (10, 0, 0xc191210430df7ffc%N); (11, 0, 0xc191210430df7ffc%N); (12, 0, 0xc191210430df7ffc%N); (15, 0, 0xc090210030db7bec%N); (16, 0, 0xc090210030db7bec%N); (17, 0, 0xc090210030db7bec%N); (18, 0, 0xc090210030db7bec%N); (19, 0, 0xc090210030db7bec%N); (20, 0, 0xc090210030db7bec%N); (21, 0, 0xc090210030db7bec%N); (22, 0, 0xc090210030db7bec%N); (23, 0, 0xc090210030db7bec%N); (24, 0, 0xc090210030db7bec%N); (25, 0, 0xc090210030db7bec%N); (26, 0, 0xc090210030db7bec%N); (27, 0, 0xc090210030db7bec%N); (28, 0, 0xc090210030db7bec%N); (29, 0, 0xc090210030db7bec%N); (31, 2, 0xc090210030db73a8%N)]
     [(1%N, 1); (3%N, 2); (4%N, 3); (6%N, 4); (24%N, 7); (33%N, 13); (34%N, 14); (43%N, 19); (46%N, 21); (48%N, 23); (51%N, 26); (66%N, 34); (1000%N, 70); (1001%N, 69); (1003%N, 180); (1004%N, 47); (1005%N, 179)];
   mkst [(0, 0, 0xc191210430df7ffc%N); (1, 0, 0xc191210430df7ffc%N); (2, 0, 0xc191210430df7ffc%N); (3, 0, 0xc191210430df7ffc%N); (4, 0, 0xc191210430df7ffc%N); (5, 0, 0xc191210430df7ffc%N); (6, 0, 0xc191210430df7ffc%N); (7, 0, 0xc191210430df7ffc%N); (8, 0, 0xc191210430df7ffc%N); (9, 0, 0xc191210430df7ffc%N); (10, 0, 0xc191210430df7ffc%N); (11, 0, 0xc191210430df7ffc%N); (12, 0, 0xc191210430df7ffc%N); (15, 0, 0xc090210030db7bec%N); (16, 0, 0xc090210030db7bec%N); (17, 0, 0xc090210030db7bec%N); (18, 0, 0xc090210030db7bec%N); (19, 0, 0xc090210030db7bec%N); (20, 0, 0xc090210030db7bec%N); (21, 0, 0xc090210030db7bec%N); (22, 0, 0xc090210030db7bec%N); (23, 0, 0xc090210030db7bec%N); (24, 0, 0xc090210030db7bec%N); (25, 0, 0xc090210030db7bec%N); (26, 0, 0xc090210030db7bec%N); (27, 0, 0xc090210030db7bec%N); (28, 0, 0xc090210030db7bec%N); (29, 0, 0xc090210030db7bec%N); (32, 2, 0xc090210030db73a8%N)]
     [(1%N, 1); (3%N, 2); (4%N, 3); (6%N, 4); (24%N, 7); (33%N, 13); (34%N, 14); (43%N, 19); (46%N, 21); (48%N, 23); (51%N, 26); (66%N, 34); (1000%N, 70); (1001%N, 69); (1003%N, 180); (1004%N, 47); (1005%N, 181)];
   mkst [(0, 0, 0xc191210430df7ffc%N); (1, 0, 0xc191210430df7ffc%N); (2, 0, 0xc191210430df7ffc%N); (3, 0, 0xc191210430df7ffc%N); (4, 0, 0xc191210430df7ffc%N); (5, 0, 0xc191210430df7ffc%N); (6, 0, 0xc191210430df7ffc%N); (7, 0, 0xc191210430df7ffc%N); (8, 0, 0xc191210430df7ffc%N); (9, 0, 0xc191210430df7ffc%N); (10, 0, 0xc191210430df7ffc%N); (11, 0, 0xc191210430df7ffc%N); (12, 0, 0xc191210430df7ffc%N); (15, 0, 0xc090210030db7bec%N); (16, 0, 0xc090210030db7bec%N); (17, 0, 0xc090210030db7bec%N); (18, 0, 0xc090210030db7bec%N); (19, 0, 0xc090210030db7bec%N); (20, 0, 0xc090210030db7bec%N); (21, 0, 0xc090210030db7bec%N); (22, 0, 0xc090210030db7bec%N); (23, 0, 0xc090210030db7bec%N); (24, 0, 0xc090210030db7bec%N); (25, 0, 0xc090210030db7bec%N); (26, 0, 0xc090210030db7bec%N); (27, 0, 0xc090210030db7bec%N); (28, 0, 0xc090210030db7bec%N); (29, 0, 0xc090210030db7bec%N); (30, 0, 0xc090210030db73a8%N); (31, 0, 0xc090210030db73a8%N); (32, 0, 0xc090210030db73a8%N); (33, 0, 0xc090210030db7128%N); (34, 0, 0xc090210030db7128%N); (35, 0, 0xc090210030db7128%N); (36, 0, 0x90210030db7128%N); (37, 0, 0x90210030db7128%N); (38, 0, 0x90210030db7128%N); (39, 0, 0x90210030db7128%N); (40, 0, 0x90210030db7128%N); (41, 0, 0x80010030da3128%N); (42, 0, 0x80010030da3128%N); (43, 0, 0x80010030da3128%N); (45, 2, 0x30da3128%N)]
     [(1%N, 1); (3%N, 2); (4%N, 3); (6%N, 4); (24%N, 7); (33%N, 13); (34%N, 14); (43%N, 19); (46%N, 21); (48%N, 23); (51%N, 26); (66%N, 34); (1000%N, 70); (1001%N, 69); (1003%N, 180); (1004%N, 47); (1005%N, 68); (1006%N, 44); (1007%N, 73); (1008%N, 71); (1009%N, 182)];
   mkst [(219, 2, 0x1fdf1e2fde97cd20205b%N)]
     [];
   mkst [(128, 0, 0x20%N); (129, 0, 0x20%N); (130, 0, 0x40030%N); (131, 0, 0x40030%N); (131, 1, 0xfdb0a2606918c24b130%N); (132, 0, 0x40030%N); (133, 0, 0x40030%N); (134, 0, 0x40030%N); (135, 0, 0x40030%N); (136, 0, 0x40030%N); (137, 0, 0x40030%N); (138, 0, 0x40030%N); (139, 0, 0x40030%N); (140, 0, 0x40030%N); (141, 0, 0x40030%N); (142, 0, 0x40030%N); (143, 0, 0x400000000010%N); (144, 0, 0x400000000010%N); (145, 0, 0x400000000010%N); (146, 0, 0x400000000010%N)]
     [(4%N, 115); (6%N, 116); (46%N, 118); (1039%N, 183); (1040%N, 121); (1041%N, 124)];
   mkst [(124, 0, 0x8000800400100040170%N); (125, 0, 0x8000800400100040170%N); (126, 0, 0x8000800400100040170%N); (143, 0, 0x400000040130%N); (143, 1, 0x400000040130%N); (144, 0, 0x400000040130%N); (144, 1, 0x400000040130%N); (145, 0, 0x400000040130%N); (145, 1, 0x400000040130%N); (146, 0, 0x400000040130%N); (146, 1, 0x400000040130%N); (147, 0, 0x8000800400100040170%N); (148, 0, 0x8000800400100040170%N)]
     [(6%N, 116); (32%N, 12); (59%N, 30); (75%N, 42); (1037%N, 185); (1041%N, 184); (1042%N, 186)];
   mkst [(67, 2, 0x1fdf1e2fde97cda0205b%N)]
     [];
   mkst [(130, 1, 0xfdb0a2606918c24b130%N)]
     [];
   mkst [(70, 2, 0xfdb0a2646918c042170%N)]
     [];
   mkst [(67, 0, 0xfdb0a2606918c200000%N); (68, 0, 0xfdb0a2606918c200000%N); (69, 0, 0xfdb0a2646918c002050%N); (70, 0, 0xfdb0a2646918c002050%N); (71, 0, 0xfdb0a2646918c002050%N); (72, 0, 0xfdb0a2646918c002050%N); (73, 0, 0xfdb0a2646918c002050%N); (74, 0, 0xfdb0a2646918c002050%N); (77, 1, 0x2100%N); (78, 1, 0x2100%N); (79, 0, 0xfdb0a2646918c002050%N); (80, 0, 0xfdb0a2646918c002050%N); (81, 0, 0xfdb0a2646918c002050%N); (82, 0, 0xfdb0a2646918c002050%N); (83, 0, 0xfdb0a2646918c002050%N); (84, 0, 0xfdb0a2646918c002050%N); (85, 0, 0xfdb0a2646918c002050%N); (86, 0, 0xfdb0a2646918c002050%N); (87, 0, 0xfdb0a2646918c002050%N); (88, 0, 0xfdb0a2646918c002050%N); (89, 0, 0xfdb0a2646918c002050%N); (90, 0, 0xfdb0a2646918c002050%N); (91, 0, 0xfdb0a2646918c002050%N); (92, 0, 0xfdb0a2646918c002050%N); (93, 0, 0xfdb0a2646918c002050%N); (94, 0, 0xfdb0a2646918c002050%N); (95, 0, 0xfdb0a2646918c002050%N); (96, 0, 0xfdb0a2646918c002050%N); (97, 0, 0xfdb0a2646918c002050%N); (98, 0, 0xfdb0a2646918c002050%N); (99, 0, 0xfdb0a2646918c002050%N); (100, 0, 0x400000200000%N); (101, 0, 0x400000200000%N); (115, 0, 0xfdb0a2646918c002050%N); (116, 0, 0xfdb0a2646918c002050%N); (117, 0, 0xfdb0a2646918c002050%N); (118, 0, 0xfdb0a2646918c002050%N); (119, 0, 0xfdb0a2646918c002050%N); (124, 0, 0xfdb0a2646918c002050%N); (125, 0, 0xfdb0a2646918c002050%N); (126, 0, 0xfdb0a2646918c002050%N); (127, 0, 0xfdb0a2646918c002050%N); (194, 0, 0x1fdf1e2fde97cd20205b%N); (195, 0, 0x1fdf1e2fde97cd20205b%N); (212, 2, 0x1fdf1e2fde97cd20205b%N); (213, 2, 0x1fdf1e2fde97cd20205b%N); (214, 0, 0xfdb0a2606918c200000%N); (215, 0, 0xfdb0a2606918c200000%N)]
     [(15%N, 187); (21%N, 6); (26%N, 8); (27%N, 9); (31%N, 11); (32%N, 12); (36%N, 15); (39%N, 16); (41%N, 17); (42%N, 18); (49%N, 24); (50%N, 25); (53%N, 27); (57%N, 28); (59%N, 30); (64%N, 32); (65%N, 33); (67%N, 35); (68%N, 36); (70%N, 37); (71%N, 38); (72%N, 39); (73%N, 40); (74%N, 41); (75%N, 42); (1019%N, 189); (1020%N, 95); (1021%N, 53); (1024%N, 75); (1025%N, 79); (1026%N, 77); (1027%N, 76); (1034%N, 55); (1037%N, 78); (1038%N, 62); (1059%N, 188); (1067%N, 190)];
   mkst [(128, 1, 0xfdb0a2606918c20b120%N); (132, 1, 0xfdb0a2606918c24b130%N); (133, 1, 0xfdb0a2606918c24b130%N); (134, 1, 0xfdb0a2606918c24b130%N); (135, 1, 0xfdb0a2606918c24b130%N); (136, 1, 0xfdb0a2606918c24b130%N); (137, 1, 0xfdb0a2606918c24b130%N); (138, 1, 0xfdb0a2606918c24b130%N); (139, 1, 0xfdb0a2606918c24b130%N); (140, 1, 0xfdb0a2606918c24b130%N); (141, 1, 0xfdb0a2606918c24b130%N); (142, 1, 0xfdb0a2606918c24b130%N)]
     [(4%N, 191); (18%N, 192)];
   mkst [(75, 1, 0x2100%N)]
     [];
   mkst [(68, 2, 0x1fdf1e2fde97cda0205b%N); (76, 1, 0x2100%N)]
     [(8%N, 193); (13%N, 194)];
   mkst [(129, 1, 0xfdb0a2606918c20b120%N); (130, 0, 0xfdb0a2606918c24b130%N); (131, 0, 0xfdb0a2606918c24b130%N); (132, 0, 0xfdb0a2606918c24b130%N); (133, 0, 0xfdb0a2606918c24b130%N); (134, 0, 0xfdb0a2606918c24b130%N); (135, 0, 0xfdb0a2606918c24b130%N); (136, 0, 0xfdb0a2606918c24b130%N); (137, 0, 0xfdb0a2606918c24b130%N); (138, 0, 0xfdb0a2606918c24b130%N); (139, 0, 0xfdb0a2606918c24b130%N); (140, 0, 0xfdb0a2606918c24b130%N); (141, 0, 0xfdb0a2606918c24b130%N); (142, 0, 0xfdb0a2606918c24b130%N)]
     [(4%N, 115); (46%N, 118); (1040%N, 195)];
   mkst [(0, 0, 0xc191210430df7ffc%N); (1, 0, 0xc191210430df7ffc%N); (2, 0, 0xc191210430df7ffc%N); (3, 0, 0xc191210430df7ffc%N); (4, 0, 0xc191210430df7ffc%N); (5, 0, 0xc191210430df7ffc%N); (6, 0, 0xc191210430df7ffc%N); (7, 0, 0xc191210430df7ffc%N); (8, 0, 0xc191210430df7ffc%N); (9, 0, 0xc191210430df7ffc%N); (10, 0, 0xc191210430df7ffc%N); (11, 0, 0xc191210430df7ffc%N); (12, 0, 0xc191210430df7ffc%N); (15, 0, 0xc090210030db7bec%N); (16, 0, 0xc090210030db7bec%N); (17, 0, 0xc090210030db7bec%N); (18, 0, 0xc090210030db7bec%N); (19, 0, 0xc090210030db7bec%N); (20, 0, 0xc090210030db7bec%N); (21, 0, 0xc090210030db7bec%N); (22, 0, 0xc090210030db7bec%N); (23, 0, 0xc090210030db7bec%N); (24, 0, 0xc090210030db7bec%N); (25, 0, 0xc090210030db7bec%N); (26, 0, 0xc090210030db7bec%N); (27, 0, 0xc090210030db7bec%N); (28, 0, 0xc090210030db7bec%N); (29, 0, 0xc090210030db7bec%N); (30, 0, 0xc090210030db73a8%N); (31, 0, 0xc090210030db73a8%N); (32, 0, 0xc090210030db73a8%N); (33, 0, 0xc090210030db7128%N); (34, 0, 0xc090210030db7128%N); (35, 0, 0xc090210030db7128%N); (36, 0, 0x90210030db7128%N); (37, 0, 0x90210030db7128%N); (38, 0, 0x90210030db7128%N); (39, 0, 0x90210030db7128%N); (40, 0, 0x90210030db7128%N); (42, 2, 0x80010030da3128%N)]
     [(1%N, 1); (3%N, 2); (4%N, 3); (6%N, 4); (24%N, 7); (33%N, 13); (34%N, 14); (43%N, 19); (46%N, 21); (48%N, 23); (51%N, 26); (66%N, 34); (1000%N, 70); (1001%N, 69); (1003%N, 180); (1004%N, 47); (1005%N, 68); (1006%N, 44); (1007%N, 73); (1008%N, 196)];
   mkst [(0, 0, 0xc191210430df7ffc%N); (1, 0, 0xc191210430df7ffc%N); (2, 0, 0xc191210430df7ffc%N); (3, 0, 0xc191210430df7ffc%N); (4, 0, 0xc191210430df7ffc%N); (5, 0, 0xc191210430df7ffc%N); (6, 0, 0xc191210430df7ffc%N); (7, 0, 0xc191210430df7ffc%N); (8, 0, 0xc191210430df7ffc%N); (9, 0, 0xc191210430df7ffc%N); (10, 0, 0xc191210430df7ffc%N); (11, 0, 0xc191210430df7ffc%N); (12, 0, 0xc191210430df7ffc%N); (15, 0, 0xc090210030db7bec%N); (16, 0, 0xc090210030db7bec%N); (17, 0, 0xc090210030db7bec%N); (18, 0, 0xc090210030db7bec%N); (19, 0, 0xc090210030db7bec%N); (20, 0, 0xc090210030db7bec%N); (21, 0, 0xc090210030db7bec%N); (22, 0, 0xc090210030db7bec%N); (23, 0, 0xc090210030db7bec%N); (24, 0, 0xc090210030db7bec%N); (25, 0, 0xc090210030db7bec%N); (26, 0, 0xc090210030db7bec%N); (27, 0, 0xc090210030db7bec%N); (28, 0, 0xc090210030db7bec%N); (29, 0, 0xc090210030db7bec%N); (30, 0, 0xc090210030db73a8%N); (31, 0, 0xc090210030db73a8%N); (32, 0, 0xc090210030db73a8%N); (33, 0, 0xc090210030db7128%N); (34, 0, 0xc090210030db7128%N); (35, 0, 0xc090210030db7128%N); (36, 0, 0x90210030db7128%N); (37, 0, 0x90210030db7128%N); (38, 0, 0x90210030db7128%N); (39, 0, 0x90210030db7128%N); (40, 0, 0x90210030db7128%N); (43, 2, 0x80010030da3128%N)]
     [(1%N, 1); (3%N, 2); (4%N, 3); (6%N, 4); (24%N, 7); (33%N, 13); (34%N, 14); (43%N, 19); (46%N, 21); (48%N, 23); (51%N, 26); (66%N, 34); (1000%N, 70); (1001%N, 69); (1003%N, 180); (1004%N, 47); (1005%N, 68); (1006%N, 44); (1007%N, 73); (1008%N, 197)];
   mkst [(0, 0, 0xc191210430df7ffc%N); (1, 0, 0xc191210430df7ffc%N); (2, 0, 0xc191210430df7ffc%N); (3, 0, 0xc191210430df7ffc%N); (4, 0, 0xc191210430df7ffc%N); (5, 0, 0xc191210430df7ffc%N); (6, 0, 0xc191210430df7ffc%N); (7, 0, 0xc191210430df7ffc%N); (8, 0, 0xc191210430df7ffc%N); (9, 0, 0xc191210430df7ffc%N); (10, 0, 0xc191210430df7ffc%N); (11, 0, 0xc191210430df7ffc%N); (12, 0, 0xc191210430df7ffc%N); (15, 0, 0xc090210030db7bec%N); (16, 0, 0xc090210030db7bec%N); (17, 0, 0xc090210030db7bec%N); (18, 0, 0xc090210030db7bec%N); (19, 0, 0xc090210030db7bec%N); (20, 0, 0xc090210030db7bec%N); (21, 0, 0xc090210030db7bec%N); (22, 0, 0xc090210030db7bec%N); (23, 0, 0xc090210030db7bec%N); (24, 0, 0xc090210030db7bec%N); (25, 0, 0xc090210030db7bec%N); (26, 0, 0xc090210030db7bec%N); (27, 0, 0xc090210030db7bec%N); (28, 0, 0xc090210030db7bec%N); (29, 0, 0xc090210030db7bec%N); (30, 0, 0xc090210030db73a8%N); (31, 0, 0xc090210030db73a8%N); (32, 0, 0xc090210030db73a8%N); (33, 0, 0xc090210030db7128%N); (34, 0, 0xc090210030db7128%N); (35, 0, 0xc090210030db7128%N); (36, 0, 0x90210030db7128%N); (37, 0, 0x90210030db7128%N); (38, 0, 0x90210030db7128%N); (39, 0, 0x90210030db7128%N); (40, 0, 0x90210030db7128%N); (41, 0, 0x80010030da3128%N); (42, 0, 0x80010030da3128%N); (43, 0, 0x80010030da3128%N); (44, 0, 0x30da3128%N); (45, 0, 0x30da3128%N); (47, 2, 0x30da3120%N)]
     [(1%N, 1); (3%N, 2); (4%N, 3); (6%N, 4); (24%N, 7); (33%N, 13); (34%N, 14); (43%N, 19); (46%N, 21); (48%N, 23); (51%N, 26); (66%N, 34); (1000%N, 70); (1001%N, 69); (1003%N, 180); (1004%N, 47); (1005%N, 68); (1006%N, 44); (1007%N, 73); (1008%N, 71); (1009%N, 56); (1010%N, 198)];
   mkst [(0, 0, 0x2020e1d1210c325ffffc%N); (1, 0, 0x2020e1d1210c325ffffc%N); (2, 0, 0x2020e1d1210c325ffffc%N); (3, 0, 0x2020e1d1210c325ffffc%N); (4, 0, 0x2020e1d1210c325ffffc%N); (5, 0, 0x2020e1d1210c325ffffc%N); (6, 0, 0x2020e1d1210c325ffffc%N); (7, 0, 0x2020e1d1210c325ffffc%N); (8, 0, 0x2020e1d1210c325ffffc%N); (9, 0, 0x2020e1d1210c325ffffc%N); (10, 0, 0x2020e1d1210c325ffffc%N); (11, 0, 0x2020e1d1210c325ffffc%N); (12, 0, 0x2020e1d1210c325ffffc%N); (15, 0, 0x2020e0d02108325bfbec%N); (16, 0, 0x2020e0d02108325bfbec%N); (17, 0, 0x2020e0d02108325bfbec%N); (18, 0, 0x2020e0d02108325bfbec%N); (19, 0, 0x2020e0d02108325bfbec%N); (20, 0, 0x2020e0d02108325bfbec%N); (21, 0, 0x2020e0d02108325bfbec%N); (22, 0, 0x2020e0d02108325bfbec%N); (23, 0, 0x2020e0d02108325bfbec%N); (24, 0, 0xc0902100305b7bec%N); (25, 0, 0xc0902100305b7bec%N); (26, 0, 0xc0902100305b7bec%N); (27, 0, 0xc0902100305b7bec%N); (28, 0, 0xc0902100305b7bec%N); (29, 0, 0xc0902100305b7bec%N); (30, 0, 0xc0902100305b73a8%N); (31, 0, 0xc0902100305b73a8%N); (32, 0, 0xc0902100305b73a8%N); (33, 0, 0xc0902100305b7128%N); (34, 0, 0xc0902100305b7128%N); (35, 0, 0xc0902100305b7128%N); (36, 0, 0x902100305b7128%N); (37, 0, 0x902100305b7128%N); (38, 0, 0x902100305b7128%N); (39, 0, 0x902100305b7128%N); (40, 0, 0x902100305b7128%N); (41, 0, 0x800100305a3128%N); (42, 0, 0x800100305a3128%N); (43, 0, 0x800100305a3128%N); (44, 0, 0x305a3128%N); (45, 0, 0x305a3128%N); (46, 0, 0x305a3120%N); (47, 0, 0x305a3120%N); (48, 0, 0x304a3120%N); (49, 0, 0x304a3120%N); (50, 0, 0x300a3120%N); (51, 0, 0x300a3120%N); (52, 0, 0x200a3120%N); (53, 0, 0x200a3120%N); (54, 0, 0x83120%N); (55, 0, 0x83120%N); (57, 0, 0x83120%N); (58, 0, 0x83120%N); (59, 0, 0x83120%N); (60, 0, 0x83120%N); (61, 0, 0x83120%N); (62, 0, 0x83120%N); (63, 0, 0x83120%N); (64, 0, 0x83120%N); (66, 2, 0x83120%N)]
     [(1%N, 1); (3%N, 2); (4%N, 3); (6%N, 4); (24%N, 7); (33%N, 13); (34%N, 14); (43%N, 19); (46%N, 21); (48%N, 23); (51%N, 26); (66%N, 34); (1000%N, 70); (1001%N, 69); (1003%N, 80); (1004%N, 47); (1005%N, 68); (1006%N, 44); (1007%N, 73); (1008%N, 71); (1009%N, 56); (1010%N, 45); (1011%N, 57); (1012%N, 63); (1013%N, 66); (1014%N, 67); (1015%N, 49); (1017%N, 199)];
   mkst [(187, 2, 0x1fdf1e2fded7cda0207b%N)]
     [];
   mkst [(0, 0, 0xc191210430df7ffc%N); (1, 0, 0xc191210430df7ffc%N); (2, 0, 0xc191210430df7ffc%N); (3, 0, 0xc191210430df7ffc%N); (4, 0, 0xc191210430df7ffc%N); (5, 0, 0xc191210430df7ffc%N); (6, 0, 0xc191210430df7ffc%N); (7, 0, 0xc191210430df7ffc%N); (8, 0, 0xc191210430df7ffc%N); (9, 0, 0xc191210430df7ffc%N); (10, 0, 0xc191210430df7ffc%N); (11, 0, 0xc191210430df7ffc%N); (12, 0, 0xc191210430df7ffc%N); (15, 0, 0xc090210030db7bec%N); (16, 0, 0xc090210030db7bec%N); (17, 0, 0xc090210030db7bec%N); (18, 0, 0xc090210030db7bec%N); (19, 0, 0xc090210030db7bec%N); (20, 0, 0xc090210030db7bec%N); (21, 0, 0xc090210030db7bec%N); (22, 0, 0xc090210030db7bec%N); (23, 0, 0xc090210030db7bec%N); (24, 0, 0xc090210030db7bec%N); (25, 0, 0xc090210030db7bec%N); (26, 0, 0xc090210030db7bec%N); (27, 0, 0xc090210030db7bec%N); (28, 0, 0xc090210030db7bec%N); (29, 0, 0xc090210030db7bec%N); (30, 0, 0xc090210030db73a8%N); (31, 0, 0xc090210030db73a8%N); (32, 0, 0xc090210030db73a8%N); (33, 0, 0xc090210030db7128%N); (34, 0, 0xc090210030db7128%N); (35, 0, 0xc090210030db7128%N); (36, 0, 0x90210030db7128%N); (37, 0, 0x90210030db7128%N); (38, 0, 0x90210030db7128%N); (39, 0, 0x90210030db7128%N); (40, 0, 0x90210030db7128%N); (41, 0, 0x80010030da3128%N); (42, 0, 0x80010030da3128%N); (43, 0, 0x80010030da3128%N); (44, 0, 0x30da3128%N); (45, 0, 0x30da3128%N); (46, 0, 0x30da3120%N); (47, 0, 0x30da3120%N); (49, 2, 0x30ca3120%N)]
     [(1%N, 1); (3%N, 2); (4%N, 3); (6%N, 4); (24%N, 7); (33%N, 13); (34%N, 14); (43%N, 19); (46%N, 21); (48%N, 23); (51%N, 26); (66%N, 34); (1000%N, 70); (1001%N, 69); (1003%N, 180); (1004%N, 47); (1005%N, 68); (1006%N, 44); (1007%N, 73); (1008%N, 71); (1009%N, 56); (1010%N, 45); (1011%N, 200)];
   mkst [(0, 0, 0xc191210430df7ffc%N); (1, 0, 0xc191210430df7ffc%N); (2, 0, 0xc191210430df7ffc%N); (3, 0, 0xc191210430df7ffc%N); (4, 0, 0xc191210430df7ffc%N); (5, 0, 0xc191210430df7ffc%N); (6, 0, 0xc191210430df7ffc%N); (7, 0, 0xc191210430df7ffc%N); (8, 0, 0xc191210430df7ffc%N); (9, 0, 0xc191210430df7ffc%N); (10, 0, 0xc191210430df7ffc%N); (11, 0, 0xc191210430df7ffc%N); (12, 0, 0xc191210430df7ffc%N); (15, 0, 0xc090210030db7bec%N); (16, 0, 0xc090210030db7bec%N); (17, 0, 0xc090210030db7bec%N); (18, 0, 0xc090210030db7bec%N); (19, 0, 0xc090210030db7bec%N); (20, 0, 0xc090210030db7bec%N); (21, 0, 0xc090210030db7bec%N); (22, 0, 0xc090210030db7bec%N); (23, 0, 0xc090210030db7bec%N); (24, 0, 0xc090210030db7bec%N); (25, 0, 0xc090210030db7bec%N); (26, 0, 0xc090210030db7bec%N); (27, 0, 0xc090210030db7bec%N); (28, 0, 0xc090210030db7bec%N); (29, 0, 0xc090210030db7bec%N); (30, 0, 0xc090210030db73a8%N); (31, 0, 0xc090210030db73a8%N); (32, 0, 0xc090210030db73a8%N); (33, 0, 0xc090210030db7128%N); (34, 0, 0xc090210030db7128%N); (35, 0, 0xc090210030db7128%N); (36, 0, 0x90210030db7128%N); (37, 0, 0x90210030db7128%N); (38, 0, 0x90210030db7128%N); (39, 0, 0x90210030db7128%N); (40, 0, 0x90210030db7128%N); (41, 0, 0x80010030da3128%N); (42, 0, 0x80010030da3128%N); (43, 0, 0x80010030da3128%N); (44, 0, 0x30da3128%N); (45, 0, 0x30da3128%N); (46, 0, 0x30da3120%N); (47, 0, 0x30da3120%N); (48, 0, 0x30ca3120%N); (49, 0, 0x30ca3120%N); (51, 2, 0x308a3120%N)]
     [(1%N, 1); (3%N, 2); (4%N, 3); (6%N, 4); (24%N, 7); (33%N, 13); (34%N, 14); (43%N, 19); (46%N, 21); (48%N, 23); (51%N, 26); (66%N, 34); (1000%N, 70); (1001%N, 69); (1003%N, 180); (1004%N, 47); (1005%N, 68); (1006%N, 44); (1007%N, 73); (1008%N, 71); (1009%N, 56); (1010%N, 45); (1011%N, 57); (1012%N, 201)];
   mkst [(0, 0, 0x2020e1d1210c3257dfdc%N); (1, 0, 0x2020e1d1210c3257dfdc%N); (2, 0, 0x2020e1d1210c3257dfdc%N); (3, 0, 0x2020e1d1210c3257dfdc%N); (4, 0, 0x2020e1d1210c3257dfdc%N); (5, 0, 0x2020e1d1210c3257dfdc%N); (6, 0, 0x2020e1d1210c3257dfdc%N); (7, 0, 0x2020e1d1210c3257dfdc%N); (8, 0, 0x2020e1d1210c3257dfdc%N); (9, 0, 0x2020e1d1210c3257dfdc%N); (10, 0, 0x2020e1d1210c3257dfdc%N); (11, 0, 0x2020e1d1210c3257dfdc%N); (12, 0, 0x2020e1d1210c3257dfdc%N); (15, 0, 0x2020e0d021083253dbcc%N); (16, 0, 0x2020e0d021083253dbcc%N); (17, 0, 0x2020e0d021083253dbcc%N); (18, 0, 0x2020e0d021083253dbcc%N); (19, 0, 0x2020e0d021083253dbcc%N); (20, 0, 0x2020e0d021083253dbcc%N); (21, 0, 0x2020e0d021083253dbcc%N); (22, 0, 0x2020e0d021083253dbcc%N); (23, 0, 0x2020e0d021083253dbcc%N); (24, 0, 0xc090210030535bcc%N); (25, 0, 0xc090210030535bcc%N); (26, 0, 0xc090210030535bcc%N); (27, 0, 0xc090210030535bcc%N); (28, 0, 0xc090210030535bcc%N); (29, 0, 0xc090210030535bcc%N); (30, 0, 0xc090210030535388%N); (31, 0, 0xc090210030535388%N); (32, 0, 0xc090210030535388%N); (33, 0, 0xc090210030535108%N); (34, 0, 0xc090210030535108%N); (35, 0, 0xc090210030535108%N); (36, 0, 0x90210030535108%N); (37, 0, 0x90210030535108%N); (38, 0, 0x90210030535108%N); (39, 0, 0x90210030535108%N); (40, 0, 0x90210030535108%N); (41, 0, 0x80010030521108%N); (42, 0, 0x80010030521108%N); (43, 0, 0x80010030521108%N); (44, 0, 0x30521108%N); (45, 0, 0x30521108%N); (46, 0, 0x30521100%N); (47, 0, 0x30521100%N); (48, 0, 0x30421100%N); (49, 0, 0x30421100%N); (50, 0, 0x30021100%N); (51, 0, 0x30021100%N); (52, 0, 0x20021100%N); (53, 0, 0x20021100%N); (54, 0, 0x1100%N); (55, 0, 0x1100%N); (55, 2, 0x883120%N); (57, 0, 0x1100%N); (58, 0, 0x1100%N); (59, 0, 0x1100%N); (60, 0, 0x1100%N); (61, 0, 0x1100%N); (62, 0, 0x1100%N); (63, 0, 0x1100%N); (64, 0, 0x1100%N); (65, 0, 0x1100%N); (66, 0, 0x1100%N)]
     [(1%N, 1); (3%N, 2); (4%N, 3); (6%N, 4); (24%N, 7); (33%N, 13); (34%N, 14); (43%N, 19); (46%N, 21); (48%N, 23); (51%N, 26); (66%N, 34); (1000%N, 70); (1001%N, 69); (1003%N, 80); (1004%N, 47); (1005%N, 68); (1006%N, 44); (1007%N, 73); (1008%N, 71); (1009%N, 56); (1010%N, 45); (1011%N, 57); (1012%N, 63); (1013%N, 66); (1014%N, 67); (1015%N, 49); (1017%N, 46); (1018%N, 202)];
   mkst [(0, 0, 0xc191210430df7ffc%N); (1, 0, 0xc191210430df7ffc%N); (2, 0, 0xc191210430df7ffc%N); (3, 0, 0xc191210430df7ffc%N); (4, 0, 0xc191210430df7ffc%N); (5, 0, 0xc191210430df7ffc%N); (6, 0, 0xc191210430df7ffc%N); (7, 0, 0xc191210430df7ffc%N); (8, 0, 0xc191210430df7ffc%N); (9, 0, 0xc191210430df7ffc%N); (10, 0, 0xc191210430df7ffc%N); (11, 0, 0xc191210430df7ffc%N); (12, 0, 0xc191210430df7ffc%N); (15, 0, 0xc090210030db7bec%N); (16, 0, 0xc090210030db7bec%N); (17, 0, 0xc090210030db7bec%N); (18, 0, 0xc090210030db7bec%N); (19, 0, 0xc090210030db7bec%N); (20, 0, 0xc090210030db7bec%N); (21, 0, 0xc090210030db7bec%N); (22, 0, 0xc090210030db7bec%N); (23, 0, 0xc090210030db7bec%N); (24, 0, 0xc090210030db7bec%N); (25, 0, 0xc090210030db7bec%N); (26, 0, 0xc090210030db7bec%N); (27, 0, 0xc090210030db7bec%N); (28, 0, 0xc090210030db7bec%N); (29, 0, 0xc090210030db7bec%N); (30, 0, 0xc090210030db73a8%N); (31, 0, 0xc090210030db73a8%N); (32, 0, 0xc090210030db73a8%N); (33, 0, 0xc090210030db7128%N); (34, 0, 0xc090210030db7128%N); (35, 0, 0xc090210030db7128%N); (36, 0, 0x90210030db7128%N); (37, 0, 0x90210030db7128%N); (38, 0, 0x90210030db7128%N); (39, 0, 0x90210030db7128%N); (40, 0, 0x90210030db7128%N); (41, 0, 0x80010030da3128%N); (42, 0, 0x80010030da3128%N); (43, 0, 0x80010030da3128%N); (44, 0, 0x30da3128%N); (45, 0, 0x30da3128%N); (46, 0, 0x30da3120%N); (47, 0, 0x30da3120%N); (48, 0, 0x30ca3120%N); (49, 0, 0x30ca3120%N); (50, 0, 0x308a3120%N); (51, 0, 0x308a3120%N); (53, 2, 0x208a3120%N)]
     [(1%N, 1); (3%N, 2); (4%N, 3); (6%N, 4); (24%N, 7); (33%N, 13); (34%N, 14); (43%N, 19); (46%N, 21); (48%N, 23); (51%N, 26); (66%N, 34); (1000%N, 70); (1001%N, 69); (1003%N, 180); (1004%N, 47); (1005%N, 68); (1006%N, 44); (1007%N, 73); (1008%N, 71); (1009%N, 56); (1010%N, 45); (1011%N, 57); (1012%N, 63); (1013%N, 203)];
   mkst [(0, 0, 0xc191210430df7ffc%N); (1, 0, 0xc191210430df7ffc%N); (2, 0, 0xc191210430df7ffc%N); (3, 0, 0xc191210430df7ffc%N); (4, 0, 0xc191210430df7ffc%N); (5, 0, 0xc191210430df7ffc%N); (6, 0, 0xc191210430df7ffc%N); (7, 0, 0xc191210430df7ffc%N); (8, 0, 0xc191210430df7ffc%N); (9, 0, 0xc191210430df7ffc%N); (10, 0, 0xc191210430df7ffc%N); (11, 0, 0xc191210430df7ffc%N); (12, 0, 0xc191210430df7ffc%N); (15, 0, 0xc090210030db7bec%N); (16, 0, 0xc090210030db7bec%N); (17, 0, 0xc090210030db7bec%N); (18, 0, 0xc090210030db7bec%N); (19, 0, 0xc090210030db7bec%N); (20, 0, 0xc090210030db7bec%N); (21, 0, 0xc090210030db7bec%N); (22, 0, 0xc090210030db7bec%N); (23, 0, 0xc090210030db7bec%N); (24, 0, 0xc090210030db7bec%N); (25, 0, 0xc090210030db7bec%N); (29, 2, 0xc090210030db7bec%N)]
     [(1%N, 1); (3%N, 2); (4%N, 3); (6%N, 4); (24%N, 7); (33%N, 13); (34%N, 14); (43%N, 19); (46%N, 21); (48%N, 23); (51%N, 26); (66%N, 34); (1000%N, 70); (1001%N, 69); (1003%N, 180); (1004%N, 204)];
   mkst [(0, 0, 0xc191210430df7ffc%N); (1, 0, 0xc191210430df7ffc%N); (2, 0, 0xc191210430df7ffc%N); (3, 0, 0xc191210430df7ffc%N); (4, 0, 0xc191210430df7ffc%N); (5, 0, 0xc191210430df7ffc%N); (6, 0, 0xc191210430df7ffc%N); (7, 0, 0xc191210430df7ffc%N); (8, 0, 0xc191210430df7ffc%N); (9, 0, 0xc191210430df7ffc%N); (10, 0, 0xc191210430df7ffc%N); (11, 0, 0xc191210430df7ffc%N); (12, 0, 0xc191210430df7ffc%N); (15, 0, 0xc090210030db7bec%N); (16, 0, 0xc090210030db7bec%N); (17, 0, 0xc090210030db7bec%N); (18, 0, 0xc090210030db7bec%N); (19, 0, 0xc090210030db7bec%N); (20, 0, 0xc090210030db7bec%N); (21, 0, 0xc090210030db7bec%N); (22, 0, 0xc090210030db7bec%N); (23, 0, 0xc090210030db7bec%N); (24, 0, 0xc090210030db7bec%N); (25, 0, 0xc090210030db7bec%N); (27, 2, 0xc090210030db7bec%N)]
     [(1%N, 1); (3%N, 2); (4%N, 3); (6%N, 4); (24%N, 7); (33%N, 13); (34%N, 14); (43%N, 19); (46%N, 21); (48%N, 23); (51%N, 26); (66%N, 34); (1000%N, 70); (1001%N, 69); (1003%N, 180); (1004%N, 205)];
   mkst [(0, 0, 0xc191210430df7ffc%N); (1, 0, 0xc191210430df7ffc%N); (2, 0, 0xc191210430df7ffc%N); (3, 0, 0xc191210430df7ffc%N); (4, 0, 0xc191210430df7ffc%N); (5, 0, 0xc191210430df7ffc%N); (6, 0, 0xc191210430df7ffc%N); (7, 0, 0xc191210430df7ffc%N); (8, 0, 0xc191210430df7ffc%N); (9, 0, 0xc191210430df7ffc%N); (10, 0, 0xc191210430df7ffc%N); (11, 0, 0xc191210430df7ffc%N); (12, 0, 0xc191210430df7ffc%N); (15, 0, 0xc090210030db7bec%N); (16, 0, 0xc090210030db7bec%N); (17, 0, 0xc090210030db7bec%N); (18, 0, 0xc090210030db7bec%N); (19, 0, 0xc090210030db7bec%N); (20, 0, 0xc090210030db7bec%N); (21, 0, 0xc090210030db7bec%N); (22, 0, 0xc090210030db7bec%N); (23, 0, 0xc090210030db7bec%N); (24, 0, 0xc090210030db7bec%N); (25, 0, 0xc090210030db7bec%N); (28, 2, 0xc090210030db7bec%N)]
     [(1%N, 1); (3%N, 2); (4%N, 3); (6%N, 4); (24%N, 7); (33%N, 13); (34%N, 14); (43%N, 19); (46%N, 21); (48%N, 23); (51%N, 26); (66%N, 34); (1000%N, 70); (1001%N, 69); (1003%N, 180); (1004%N, 206)];
   mkst [(0, 0, 0x2020e1d1210c3257cffc%N); (1, 0, 0x2020e1d1210c3257cffc%N); (2, 0, 0x2020e1d1210c3257cffc%N); (3, 0, 0x2020e1d1210c3257cffc%N); (4, 0, 0x2020e1d1210c3257cffc%N); (5, 0, 0x2020e1d1210c3257cffc%N); (6, 0, 0x2020e1d1210c3257cffc%N); (6, 2, 0x2020e1d1210c32dffffc%N); (7, 0, 0x2020e1d1210c3257cffc%N); (7, 2, 0x2020e1d1210c32dffffc%N); (8, 0, 0x2020e1d1210c3257cffc%N); (9, 0, 0x2020e1d1210c3257cffc%N); (10, 0, 0x2020e1d1210c3257cffc%N); (11, 0, 0x2020e1d1210c3257cffc%N); (12, 0, 0x2020e1d1210c3257cffc%N); (13, 0, 0x120%N); (14, 0, 0x120%N); (15, 0, 0x2020e0d021083253cbec%N); (16, 0, 0x2020e0d021083253cbec%N); (17, 0, 0x2020e0d021083253cbec%N); (18, 0, 0x2020e0d021083253cbec%N); (19, 0, 0x2020e0d021083253cbec%N); (20, 0, 0x2020e0d021083253cbec%N); (21, 0, 0x2020e0d021083253cbec%N); (22, 0, 0x2020e0d021083253cbec%N); (23, 0, 0x2020e0d021083253cbec%N); (24, 0, 0xc090210030534bec%N); (25, 0, 0xc090210030534bec%N); (26, 0, 0xc090210030534bec%N); (27, 0, 0xc090210030534bec%N); (28, 0, 0xc090210030534bec%N); (29, 0, 0xc090210030534bec%N); (30, 0, 0xc0902100305343a8%N); (31, 0, 0xc0902100305343a8%N); (32, 0, 0xc0902100305343a8%N); (33, 0, 0xc090210030534128%N); (34, 0, 0xc090210030534128%N); (35, 0, 0xc090210030534128%N); (36, 0, 0x90210030534128%N); (37, 0, 0x90210030534128%N); (38, 0, 0x90210030534128%N); (39, 0, 0x90210030534128%N); (40, 0, 0x90210030534128%N); (41, 0, 0x80010030520128%N); (42, 0, 0x80010030520128%N); (43, 0, 0x80010030520128%N); (44, 0, 0x30520128%N); (45, 0, 0x30520128%N); (46, 0, 0x30520120%N); (47, 0, 0x30520120%N); (48, 0, 0x30420120%N); (49, 0, 0x30420120%N); (50, 0, 0x30020120%N); (51, 0, 0x30020120%N); (52, 0, 0x20020120%N); (53, 0, 0x20020120%N); (54, 0, 0x120%N); (55, 0, 0x120%N); (57, 0, 0x120%N); (58, 0, 0x120%N); (59, 0, 0x120%N); (60, 0, 0x120%N); (61, 0, 0x120%N); (62, 0, 0x120%N); (63, 0, 0x120%N); (64, 0, 0x120%N)]
     [(1%N, 1); (3%N, 2); (4%N, 3); (5%N, 207); (6%N, 4); (24%N, 7); (33%N, 13); (34%N, 14); (43%N, 19); (46%N, 21); (48%N, 23); (51%N, 26); (66%N, 34); (1000%N, 70); (1001%N, 69); (1002%N, 208); (1003%N, 80); (1004%N, 47); (1005%N, 68); (1006%N, 44); (1007%N, 73); (1008%N, 71); (1009%N, 56); (1010%N, 45); (1011%N, 57); (1012%N, 63); (1013%N, 66); (1014%N, 67); (1015%N, 49); (1017%N, 209)];
   mkst [(11, 2, 0x2020e1d1210c32dffffc%N)]
     [(46%N, 210)];
   mkst [(0, 0, 0x2020e1d1210c325fcfdc%N); (1, 0, 0x2020e1d1210c325fcfdc%N); (2, 0, 0x2020e1d1210c325fcfdc%N); (3, 0, 0x2020e1d1210c325fcfdc%N); (4, 0, 0x2020e1d1210c325fcfdc%N); (5, 0, 0x2020e1d1210c325fcfdc%N); (6, 0, 0x2020e1d1210c325fcfdc%N); (7, 0, 0x2020e1d1210c325fcfdc%N); (8, 0, 0x2020e1d1210c325fcfdc%N); (8, 2, 0x2020e1d1210c32dffffc%N); (9, 0, 0x2020e1d1210c325fcfdc%N); (10, 0, 0x2020e1d1210c325fcfdc%N); (11, 0, 0x2020e1d1210c325fcfdc%N); (12, 0, 0x2020e1d1210c325fcfdc%N); (15, 0, 0x2020e0d02108325bcbcc%N); (16, 0, 0x2020e0d02108325bcbcc%N); (17, 0, 0x2020e0d02108325bcbcc%N); (18, 0, 0x2020e0d02108325bcbcc%N); (19, 0, 0x2020e0d02108325bcbcc%N); (20, 0, 0x2020e0d02108325bcbcc%N); (21, 0, 0x2020e0d02108325bcbcc%N); (22, 0, 0x2020e0d02108325bcbcc%N); (23, 0, 0x2020e0d02108325bcbcc%N); (24, 0, 0xc0902100305b4bcc%N); (25, 0, 0xc0902100305b4bcc%N); (26, 0, 0xc0902100305b4bcc%N); (27, 0, 0xc0902100305b4bcc%N); (28, 0, 0xc0902100305b4bcc%N); (29, 0, 0xc0902100305b4bcc%N); (30, 0, 0xc0902100305b4388%N); (31, 0, 0xc0902100305b4388%N); (32, 0, 0xc0902100305b4388%N); (33, 0, 0xc0902100305b4108%N); (34, 0, 0xc0902100305b4108%N); (35, 0, 0xc0902100305b4108%N); (36, 0, 0x902100305b4108%N); (37, 0, 0x902100305b4108%N); (38, 0, 0x902100305b4108%N); (39, 0, 0x902100305b4108%N); (40, 0, 0x902100305b4108%N); (41, 0, 0x800100305a0108%N); (42, 0, 0x800100305a0108%N); (43, 0, 0x800100305a0108%N); (44, 0, 0x305a0108%N); (45, 0, 0x305a0108%N); (46, 0, 0x305a0100%N); (47, 0, 0x305a0100%N); (48, 0, 0x304a0100%N); (49, 0, 0x304a0100%N); (50, 0, 0x300a0100%N); (51, 0, 0x300a0100%N); (52, 0, 0x200a0100%N); (53, 0, 0x200a0100%N); (54, 0, 0x80100%N); (55, 0, 0x80100%N); (57, 0, 0x80100%N); (58, 0, 0x80100%N); (59, 0, 0x80100%N); (60, 0, 0x80100%N); (61, 0, 0x80100%N); (62, 0, 0x80100%N); (63, 0, 0x80100%N); (64, 0, 0x80100%N); (65, 0, 0x80100%N); (66, 0, 0x80100%N)]
     [(1%N, 1); (3%N, 2); (4%N, 3); (6%N, 4); (24%N, 7); (33%N, 13); (34%N, 14); (43%N, 19); (46%N, 21); (48%N, 23); (51%N, 26); (66%N, 34); (1000%N, 70); (1001%N, 69); (1003%N, 80); (1004%N, 47); (1005%N, 68); (1006%N, 44); (1007%N, 73); (1008%N, 71); (1009%N, 56); (1010%N, 45); (1011%N, 57); (1012%N, 63); (1013%N, 66); (1014%N, 67); (1015%N, 49); (1017%N, 46); (1018%N, 211)];
   mkst [(10, 2, 0x2020e1d1210c32dffffc%N)]
     [];
   mkst [(9, 2, 0x2020e1d1210c32dffffc%N)]
     [];
   mkst [(12, 2, 0x2020e1d1210c32dffffc%N)]
     [(46%N, 212)];
   mkst [(0, 0, 0xc191210430df7ffc%N); (1, 0, 0xc191210430df7ffc%N); (2, 0, 0xc191210430df7ffc%N); (3, 0, 0xc191210430df7ffc%N); (4, 0, 0xc191210430df7ffc%N); (5, 0, 0xc191210430df7ffc%N); (6, 0, 0xc191210430df7ffc%N); (7, 0, 0xc191210430df7ffc%N); (8, 0, 0xc191210430df7ffc%N); (9, 0, 0xc191210430df7ffc%N); (10, 0, 0xc191210430df7ffc%N); (11, 0, 0xc191210430df7ffc%N); (12, 0, 0xc191210430df7ffc%N); (15, 0, 0xc090210030db7bec%N); (16, 0, 0xc090210030db7bec%N); (17, 0, 0xc090210030db7bec%N); (18, 0, 0xc090210030db7bec%N); (19, 0, 0xc090210030db7bec%N); (20, 0, 0xc090210030db7bec%N); (21, 0, 0xc090210030db7bec%N); (22, 0, 0xc090210030db7bec%N); (23, 0, 0xc090210030db7bec%N); (24, 0, 0xc090210030db7bec%N); (25, 0, 0xc090210030db7bec%N); (26, 0, 0xc090210030db7bec%N); (27, 0, 0xc090210030db7bec%N); (28, 0, 0xc090210030db7bec%N); (29, 0, 0xc090210030db7bec%N); (30, 0, 0xc090210030db73a8%N); (31, 0, 0xc090210030db73a8%N); (32, 0, 0xc090210030db73a8%N); (33, 0, 0xc090210030db7128%N); (34, 0, 0xc090210030db7128%N); (35, 0, 0xc090210030db7128%N); (37, 2, 0x90210030db7128%N)]
     [(1%N, 1); (3%N, 2); (4%N, 3); (6%N, 4); (24%N, 7); (33%N, 13); (34%N, 14); (43%N, 19); (46%N, 21); (48%N, 23); (51%N, 26); (66%N, 34); (1000%N, 70); (1001%N, 69); (1003%N, 180); (1004%N, 47); (1005%N, 68); (1006%N, 44); (1007%N, 213)];
   mkst [(0, 0, 0xc191210430df7ffc%N); (1, 0, 0xc191210430df7ffc%N); (2, 0, 0xc191210430df7ffc%N); (3, 0, 0xc191210430df7ffc%N); (4, 0, 0xc191210430df7ffc%N); (5, 0, 0xc191210430df7ffc%N); (6, 0, 0xc191210430df7ffc%N); (7, 0, 0xc191210430df7ffc%N); (8, 0, 0xc191210430df7ffc%N); (9, 0, 0xc191210430df7ffc%N); (10, 0, 0xc191210430df7ffc%N); (11, 0, 0xc191210430df7ffc%N); (12, 0, 0xc191210430df7ffc%N); (15, 0, 0xc090210030db7bec%N); (16, 0, 0xc090210030db7bec%N); (17, 0, 0xc090210030db7bec%N); (18, 0, 0xc090210030db7bec%N); (19, 0, 0xc090210030db7bec%N); (20, 0, 0xc090210030db7bec%N); (21, 0, 0xc090210030db7bec%N); (22, 0, 0xc090210030db7bec%N); (23, 0, 0xc090210030db7bec%N); (24, 0, 0xc090210030db7bec%N); (25, 0, 0xc090210030db7bec%N); (26, 0, 0xc090210030db7bec%N); (27, 0, 0xc090210030db7bec%N); (28, 0, 0xc090210030db7bec%N); (29, 0, 0xc090210030db7bec%N); (30, 0, 0xc090210030db73a8%N); (31, 0, 0xc090210030db73a8%N); (32, 0, 0xc090210030db73a8%N); (33, 0, 0xc090210030db7128%N); (34, 0, 0xc090210030db7128%N); (35, 0, 0xc090210030db7128%N); (38, 2, 0x90210030db7128%N)]
     [(1%N, 1); (3%N, 2); (4%N, 3); (6%N, 4); (24%N, 7); (33%N, 13); (34%N, 14); (43%N, 19); (46%N, 21); (48%N, 23); (51%N, 26); (66%N, 34); (1000%N, 70); (1001%N, 69); (1003%N, 180); (1004%N, 47); (1005%N, 68); (1006%N, 44); (1007%N, 214)];
   mkst [(0, 0, 0xc191210430df7ffc%N); (1, 0, 0xc191210430df7ffc%N); (2, 0, 0xc191210430df7ffc%N); (3, 0, 0xc191210430df7ffc%N); (4, 0, 0xc191210430df7ffc%N); (5, 0, 0xc191210430df7ffc%N); (6, 0, 0xc191210430df7ffc%N); (7, 0, 0xc191210430df7ffc%N); (8, 0, 0xc191210430df7ffc%N); (9, 0, 0xc191210430df7ffc%N); (10, 0, 0xc191210430df7ffc%N); (11, 0, 0xc191210430df7ffc%N); (12, 0, 0xc191210430df7ffc%N); (15, 0, 0xc090210030db7bec%N); (16, 0, 0xc090210030db7bec%N); (17, 0, 0xc090210030db7bec%N); (18, 0, 0xc090210030db7bec%N); (19, 0, 0xc090210030db7bec%N); (20, 0, 0xc090210030db7bec%N); (21, 0, 0xc090210030db7bec%N); (22, 0, 0xc090210030db7bec%N); (23, 0, 0xc090210030db7bec%N); (24, 0, 0xc090210030db7bec%N); (25, 0, 0xc090210030db7bec%N); (26, 0, 0xc090210030db7bec%N); (27, 0, 0xc090210030db7bec%N); (28, 0, 0xc090210030db7bec%N); (29, 0, 0xc090210030db7bec%N); (30, 0, 0xc090210030db73a8%N); (31, 0, 0xc090210030db73a8%N); (32, 0, 0xc090210030db73a8%N); (33, 0, 0xc090210030db7128%N); (34, 0, 0xc090210030db7128%N); (35, 0, 0xc090210030db7128%N); (40, 2, 0x90210030db7128%N)]
     [(1%N, 1); (3%N, 2); (4%N, 3); (6%N, 4); (24%N, 7); (33%N, 13); (34%N, 14); (43%N, 19); (46%N, 21); (48%N, 23); (51%N, 26); (66%N, 34); (1000%N, 70); (1001%N, 69); (1003%N, 180); (1004%N, 47); (1005%N, 68); (1006%N, 44); (1007%N, 215)];
   mkst [(0, 0, 0xc191210430df7ffc%N); (1, 0, 0xc191210430df7ffc%N); (2, 0, 0xc191210430df7ffc%N); (3, 0, 0xc191210430df7ffc%N); (4, 0, 0xc191210430df7ffc%N); (5, 0, 0xc191210430df7ffc%N); (6, 0, 0xc191210430df7ffc%N); (7, 0, 0xc191210430df7ffc%N); (8, 0, 0xc191210430df7ffc%N); (9, 0, 0xc191210430df7ffc%N); (10, 0, 0xc191210430df7ffc%N); (11, 0, 0xc191210430df7ffc%N); (12, 0, 0xc191210430df7ffc%N); (15, 0, 0xc090210030db7bec%N); (16, 0, 0xc090210030db7bec%N); (17, 0, 0xc090210030db7bec%N); (18, 0, 0xc090210030db7bec%N); (19, 0, 0xc090210030db7bec%N); (20, 0, 0xc090210030db7bec%N); (21, 0, 0xc090210030db7bec%N); (22, 0, 0xc090210030db7bec%N); (23, 0, 0xc090210030db7bec%N); (24, 0, 0xc090210030db7bec%N); (25, 0, 0xc090210030db7bec%N); (26, 0, 0xc090210030db7bec%N); (27, 0, 0xc090210030db7bec%N); (28, 0, 0xc090210030db7bec%N); (29, 0, 0xc090210030db7bec%N); (30, 0, 0xc090210030db73a8%N); (31, 0, 0xc090210030db73a8%N); (32, 0, 0xc090210030db73a8%N); (33, 0, 0xc090210030db7128%N); (34, 0, 0xc090210030db7128%N); (35, 0, 0xc090210030db7128%N); (39, 2, 0x90210030db7128%N)]
     [(1%N, 1); (3%N, 2); (4%N, 3); (6%N, 4); (24%N, 7); (33%N, 13); (34%N, 14); (43%N, 19); (46%N, 21); (48%N, 23); (51%N, 26); (66%N, 34); (1000%N, 70); (1001%N, 69); (1003%N, 180); (1004%N, 47); (1005%N, 68); (1006%N, 44); (1007%N, 216)];
   mkst [(0, 0, 0xc191210430df7ffc%N); (1, 0, 0xc191210430df7ffc%N); (2, 0, 0xc191210430df7ffc%N); (3, 0, 0xc191210430df7ffc%N); (4, 0, 0xc191210430df7ffc%N); (5, 0, 0xc191210430df7ffc%N); (6, 0, 0xc191210430df7ffc%N); (7, 0, 0xc191210430df7ffc%N); (8, 0, 0xc191210430df7ffc%N); (9, 0, 0xc191210430df7ffc%N); (10, 0, 0xc191210430df7ffc%N); (11, 0, 0xc191210430df7ffc%N); (12, 0, 0xc191210430df7ffc%N); (15, 0, 0xc090210030db7bec%N); (16, 0, 0xc090210030db7bec%N); (17, 0, 0xc090210030db7bec%N); (18, 0, 0xc090210030db7bec%N); (19, 0, 0xc090210030db7bec%N); (20, 0, 0xc090210030db7bec%N); (21, 0, 0xc090210030db7bec%N); (22, 0, 0xc090210030db7bec%N); (23, 0, 0xc090210030db7bec%N); (24, 0, 0xc090210030db7bec%N); (25, 0, 0xc090210030db7bec%N); (26, 0, 0xc090210030db7bec%N); (27, 0, 0xc090210030db7bec%N); (28, 0, 0xc090210030db7bec%N); (29, 0, 0xc090210030db7bec%N); (30, 0, 0xc090210030db73a8%N); (31, 0, 0xc090210030db73a8%N); (32, 0, 0xc090210030db73a8%N); (34, 2, 0xc090210030db7128%N)]
     [(1%N, 1); (3%N, 2); (4%N, 3); (6%N, 4); (24%N, 7); (33%N, 13); (34%N, 14); (43%N, 19); (46%N, 21); (48%N, 23); (51%N, 26); (66%N, 34); (1000%N, 70); (1001%N, 69); (1003%N, 180); (1004%N, 47); (1005%N, 68); (1006%N, 217)];
   mkst [(0, 0, 0xc191210430df7ffc%N); (1, 0, 0xc191210430df7ffc%N); (2, 0, 0xc191210430df7ffc%N); (3, 0, 0xc191210430df7ffc%N); (4, 0, 0xc191210430df7ffc%N); (5, 0, 0xc191210430df7ffc%N); (6, 0, 0xc191210430df7ffc%N); (7, 0, 0xc191210430df7ffc%N); (8, 0, 0xc191210430df7ffc%N); (9, 0, 0xc191210430df7ffc%N); (10, 0, 0xc191210430df7ffc%N); (11, 0, 0xc191210430df7ffc%N); (12, 0, 0xc191210430df7ffc%N); (15, 0, 0xc090210030db7bec%N); (16, 0, 0xc090210030db7bec%N); (17, 0, 0xc090210030db7bec%N); (18, 0, 0xc090210030db7bec%N); (19, 0, 0xc090210030db7bec%N); (20, 0, 0xc090210030db7bec%N); (21, 0, 0xc090210030db7bec%N); (22, 0, 0xc090210030db7bec%N); (23, 0, 0xc090210030db7bec%N); (24, 0, 0xc090210030db7bec%N); (25, 0, 0xc090210030db7bec%N); (26, 0, 0xc090210030db7bec%N); (27, 0, 0xc090210030db7bec%N); (28, 0, 0xc090210030db7bec%N); (29, 0, 0xc090210030db7bec%N); (30, 0, 0xc090210030db73a8%N); (31, 0, 0xc090210030db73a8%N); (32, 0, 0xc090210030db73a8%N); (35, 2, 0xc090210030db7128%N)]
     [(1%N, 1); (3%N, 2); (4%N, 3); (6%N, 4); (24%N, 7); (33%N, 13); (34%N, 14); (43%N, 19); (46%N, 21); (48%N, 23); (51%N, 26); (66%N, 34); (1000%N, 70); (1001%N, 69); (1003%N, 180); (1004%N, 47); (1005%N, 68); (1006%N, 218)];
   mkst [(84, 0, 0xf930824449188003050%N); (85, 0, 0xf930824449188003050%N); (86, 0, 0xf930824449188003050%N); (87, 0, 0xf930824449188003050%N); (88, 0, 0xf930824449188003050%N); (89, 0, 0xf930824449188003050%N); (90, 0, 0xf930824449188003050%N); (91, 0, 0xf930824449188003050%N); (92, 0, 0xf930824449188003050%N); (93, 0, 0xf930824449188003050%N); (94, 0, 0xf930824449188003050%N); (95, 0, 0xf930824449188003050%N); (96, 0, 0xf930824449188003050%N); (97, 0, 0xf930824449188003050%N); (98, 0, 0xf930824449188003050%N); (98, 2, 0xfdb0a2646918c043170%N); (99, 0, 0xf930824449188003050%N); (100, 0, 0x400000200000%N); (101, 0, 0x400000200000%N); (102, 0, 0xf930824049188800000%N); (103, 0, 0xf930824049188800000%N); (104, 0, 0xf930824049188800000%N); (105, 0, 0xf930824049188800000%N); (106, 0, 0xf930824449188003050%N); (107, 0, 0xf930824449188003050%N); (108, 0, 0xf930824449188003050%N); (109, 0, 0xf930824449188003050%N); (115, 0, 0xf930824449188003050%N); (116, 0, 0xf930824449188003050%N); (117, 0, 0xf930824449188003050%N); (118, 0, 0xf930824449188003050%N); (119, 0, 0xf930824449188003050%N); (124, 0, 0xf930824449188003050%N); (125, 0, 0xf930824449188003050%N); (126, 0, 0xf930824449188003050%N)]
     [(27%N, 9); (31%N, 11); (32%N, 12); (36%N, 15); (39%N, 16); (42%N, 18); (50%N, 25); (53%N, 27); (59%N, 30); (64%N, 32); (65%N, 33); (68%N, 36); (71%N, 38); (72%N, 39); (73%N, 40); (74%N, 41); (75%N, 42); (1025%N, 89); (1026%N, 77); (1027%N, 76); (1028%N, 221); (1029%N, 220); (1030%N, 219); (1031%N, 85); (1034%N, 55); (1037%N, 88)];
   mkst [(97, 2, 0xfdb0a2646918c043170%N); (99, 2, 0xfdb0a2646918c043170%N)]
     [(21%N, 222)];
   mkst [(0, 0, 0x2020e1d1210c32dffffc%N); (1, 0, 0x2020e1d1210c32dffffc%N); (2, 0, 0x2020e1d1210c32dffffc%N); (3, 0, 0x2020e1d1210c32dffffc%N); (4, 0, 0x2020e1d1210c32dffffc%N); (5, 0, 0x2020e1d1210c32dffffc%N); (6, 0, 0x2020e1d1210c32dffffc%N); (7, 0, 0x2020e1d1210c32dffffc%N); (8, 0, 0x2020e1d1210c32dffffc%N); (9, 0, 0x2020e1d1210c32dffffc%N); (10, 0, 0x2020e1d1210c32dffffc%N); (11, 0, 0x2020e1d1210c32dffffc%N); (12, 0, 0x2020e1d1210c32dffffc%N); (15, 0, 0x2020e0d0210832dbfbec%N); (16, 0, 0x2020e0d0210832dbfbec%N); (17, 0, 0x2020e0d0210832dbfbec%N); (18, 0, 0x2020e0d0210832dbfbec%N); (19, 0, 0x2020e0d0210832dbfbec%N); (20, 0, 0x2020e0d0210832dbfbec%N); (21, 0, 0x2020e0d0210832dbfbec%N); (22, 0, 0x2020e0d0210832dbfbec%N); (23, 0, 0x2020e0d0210832dbfbec%N); (24, 0, 0xc090210030db7bec%N); (25, 0, 0xc090210030db7bec%N); (26, 0, 0xc090210030db7bec%N); (27, 0, 0xc090210030db7bec%N); (28, 0, 0xc090210030db7bec%N); (29, 0, 0xc090210030db7bec%N); (30, 0, 0xc090210030db73a8%N); (31, 0, 0xc090210030db73a8%N); (32, 0, 0xc090210030db73a8%N); (33, 0, 0xc090210030db7128%N); (34, 0, 0xc090210030db7128%N); (35, 0, 0xc090210030db7128%N); (36, 0, 0x90210030db7128%N); (37, 0, 0x90210030db7128%N); (38, 0, 0x90210030db7128%N); (39, 0, 0x90210030db7128%N); (40, 0, 0x90210030db7128%N); (41, 0, 0x80010030da3128%N); (42, 0, 0x80010030da3128%N); (43, 0, 0x80010030da3128%N); (44, 0, 0x30da3128%N); (45, 0, 0x30da3128%N); (46, 0, 0x30da3120%N); (47, 0, 0x30da3120%N); (48, 0, 0x30ca3120%N); (49, 0, 0x30ca3120%N); (50, 0, 0x308a3120%N); (51, 0, 0x308a3120%N); (52, 0, 0x208a3120%N); (53, 0, 0x208a3120%N); (54, 0, 0x883120%N); (55, 0, 0x883120%N); (57, 0, 0x883120%N); (58, 0, 0x883120%N); (58, 2, 0x883120%N); (59, 0, 0x883120%N); (60, 0, 0x883120%N); (61, 0, 0x883120%N); (62, 0, 0x883120%N); (63, 0, 0x883120%N); (64, 0, 0x883120%N)]
     [(1%N, 1); (3%N, 2); (4%N, 3); (6%N, 4); (24%N, 7); (33%N, 13); (34%N, 14); (43%N, 19); (46%N, 21); (48%N, 23); (51%N, 26); (66%N, 34); (1000%N, 70); (1001%N, 69); (1003%N, 80); (1004%N, 47); (1005%N, 68); (1006%N, 44); (1007%N, 73); (1008%N, 71); (1009%N, 56); (1010%N, 45); (1011%N, 57); (1012%N, 63); (1013%N, 66); (1014%N, 67); (1015%N, 49); (1017%N, 223)];
   mkst [(0, 0, 0x2020e1d1210c32dffffc%N); (1, 0, 0x2020e1d1210c32dffffc%N); (2, 0, 0x2020e1d1210c32dffffc%N); (3, 0, 0x2020e1d1210c32dffffc%N); (4, 0, 0x2020e1d1210c32dffffc%N); (5, 0, 0x2020e1d1210c32dffffc%N); (6, 0, 0x2020e1d1210c32dffffc%N); (7, 0, 0x2020e1d1210c32dffffc%N); (8, 0, 0x2020e1d1210c32dffffc%N); (9, 0, 0x2020e1d1210c32dffffc%N); (10, 0, 0x2020e1d1210c32dffffc%N); (11, 0, 0x2020e1d1210c32dffffc%N); (12, 0, 0x2020e1d1210c32dffffc%N); (15, 0, 0x2020e0d0210832dbfbec%N); (16, 0, 0x2020e0d0210832dbfbec%N); (17, 0, 0x2020e0d0210832dbfbec%N); (18, 0, 0x2020e0d0210832dbfbec%N); (19, 0, 0x2020e0d0210832dbfbec%N); (20, 0, 0x2020e0d0210832dbfbec%N); (21, 0, 0x2020e0d0210832dbfbec%N); (22, 0, 0x2020e0d0210832dbfbec%N); (23, 0, 0x2020e0d0210832dbfbec%N); (24, 0, 0xc090210030db7bec%N); (25, 0, 0xc090210030db7bec%N); (26, 0, 0xc090210030db7bec%N); (27, 0, 0xc090210030db7bec%N); (28, 0, 0xc090210030db7bec%N); (29, 0, 0xc090210030db7bec%N); (30, 0, 0xc090210030db73a8%N); (31, 0, 0xc090210030db73a8%N); (32, 0, 0xc090210030db73a8%N); (33, 0, 0xc090210030db7128%N); (34, 0, 0xc090210030db7128%N); (35, 0, 0xc090210030db7128%N); (36, 0, 0x90210030db7128%N); (37, 0, 0x90210030db7128%N); (38, 0, 0x90210030db7128%N); (39, 0, 0x90210030db7128%N); (40, 0, 0x90210030db7128%N); (41, 0, 0x80010030da3128%N); (42, 0, 0x80010030da3128%N); (43, 0, 0x80010030da3128%N); (44, 0, 0x30da3128%N); (45, 0, 0x30da3128%N); (46, 0, 0x30da3120%N); (47, 0, 0x30da3120%N); (48, 0, 0x30ca3120%N); (49, 0, 0x30ca3120%N); (50, 0, 0x308a3120%N); (51, 0, 0x308a3120%N); (52, 0, 0x208a3120%N); (53, 0, 0x208a3120%N); (54, 0, 0x883120%N); (55, 0, 0x883120%N); (57, 0, 0x883120%N); (58, 0, 0x883120%N); (59, 0, 0x883120%N); (59, 2, 0x883120%N); (60, 0, 0x883120%N); (61, 0, 0x883120%N); (62, 0, 0x883120%N); (63, 0, 0x883120%N); (64, 0, 0x883120%N)]
     [(1%N, 1); (3%N, 2); (4%N, 3); (6%N, 4); (24%N, 7); (33%N, 13); (34%N, 14); (43%N, 19); (46%N, 21); (48%N, 23); (51%N, 26); (66%N, 34); (1000%N, 70); (1001%N, 69); (1003%N, 80); (1004%N, 47); (1005%N, 68); (1006%N, 44); (1007%N, 73); (1008%N, 71); (1009%N, 56); (1010%N, 45); (1011%N, 57); (1012%N, 63); (1013%N, 66); (1014%N, 67); (1015%N, 49); (1017%N, 224)];
   mkst [(0, 0, 0x2020e1d1210c32dffffc%N); (1, 0, 0x2020e1d1210c32dffffc%N); (2, 0, 0x2020e1d1210c32dffffc%N); (3, 0, 0x2020e1d1210c32dffffc%N); (4, 0, 0x2020e1d1210c32dffffc%N); (5, 0, 0x2020e1d1210c32dffffc%N); (6, 0, 0x2020e1d1210c32dffffc%N); (7, 0, 0x2020e1d1210c32dffffc%N); (8, 0, 0x2020e1d1210c32dffffc%N); (9, 0, 0x2020e1d1210c32dffffc%N); (10, 0, 0x2020e1d1210c32dffffc%N); (11, 0, 0x2020e1d1210c32dffffc%N); (12, 0, 0x2020e1d1210c32dffffc%N); (15, 0, 0x2020e0d0210832dbfbec%N); (16, 0, 0x2020e0d0210832dbfbec%N); (17, 0, 0x2020e0d0210832dbfbec%N); (18, 0, 0x2020e0d0210832dbfbec%N); (19, 0, 0x2020e0d0210832dbfbec%N); (20, 0, 0x2020e0d0210832dbfbec%N); (21, 0, 0x2020e0d0210832dbfbec%N); (22, 0, 0x2020e0d0210832dbfbec%N); (23, 0, 0x2020e0d0210832dbfbec%N); (24, 0, 0xc090210030db7bec%N); (25, 0, 0xc090210030db7bec%N); (26, 0, 0xc090210030db7bec%N); (27, 0, 0xc090210030db7bec%N); (28, 0, 0xc090210030db7bec%N); (29, 0, 0xc090210030db7bec%N); (30, 0, 0xc090210030db73a8%N); (31, 0, 0xc090210030db73a8%N); (32, 0, 0xc090210030db73a8%N); (33, 0, 0xc090210030db7128%N); (34, 0, 0xc090210030db7128%N); (35, 0, 0xc090210030db7128%N); (36, 0, 0x90210030db7128%N); (37, 0, 0x90210030db7128%N); (38, 0, 0x90210030db7128%N); (39, 0, 0x90210030db7128%N); (40, 0, 0x90210030db7128%N); (41, 0, 0x80010030da3128%N); (42, 0, 0x80010030da3128%N); (43, 0, 0x80010030da3128%N); (44, 0, 0x30da3128%N); (45, 0, 0x30da3128%N); (46, 0, 0x30da3120%N); (47, 0, 0x30da3120%N); (48, 0, 0x30ca3120%N); (49, 0, 0x30ca3120%N); (50, 0, 0x308a3120%N); (51, 0, 0x308a3120%N); (52, 0, 0x208a3120%N); (53, 0, 0x208a3120%N); (54, 0, 0x883120%N); (55, 0, 0x883120%N); (57, 0, 0x883120%N); (58, 0, 0x883120%N); (59, 0, 0x883120%N); (60, 0, 0x883120%N); (61, 0, 0x883120%N); (61, 2, 0x883120%N); (62, 0, 0x883120%N); (63, 0, 0x883120%N); (64, 0, 0x883120%N)]
     [(1%N, 1); (3%N, 2); (4%N, 3); (6%N, 4); (24%N, 7); (33%N, 13); (34%N, 14); (43%N, 19); (46%N, 21); (48%N, 23); (51%N, 26); (66%N, 34); (1000%N, 70); (1001%N, 69); (1003%N, 80); (1004%N, 47); (1005%N, 68); (1006%N, 44); (1007%N, 73); (1008%N, 71); (1009%N, 56); (1010%N, 45); (1011%N, 57); (1012%N, 63); (1013%N, 66); (1014%N, 67); (1015%N, 49); (1017%N, 225)];
   mkst [(0, 0, 0x2020e1d1210c32dffffc%N); (1, 0, 0x2020e1d1210c32dffffc%N); (2, 0, 0x2020e1d1210c32dffffc%N); (3, 0, 0x2020e1d1210c32dffffc%N); (4, 0, 0x2020e1d1210c32dffffc%N); (5, 0, 0x2020e1d1210c32dffffc%N); (6, 0, 0x2020e1d1210c32dffffc%N); (7, 0, 0x2020e1d1210c32dffffc%N); (8, 0, 0x2020e1d1210c32dffffc%N); (9, 0, 0x2020e1d1210c32dffffc%N); (10, 0, 0x2020e1d1210c32dffffc%N); (11, 0, 0x2020e1d1210c32dffffc%N); (12, 0, 0x2020e1d1210c32dffffc%N); (15, 0, 0x2020e0d0210832dbfbec%N); (16, 0, 0x2020e0d0210832dbfbec%N); (17, 0, 0x2020e0d0210832dbfbec%N); (18, 0, 0x2020e0d0210832dbfbec%N); (19, 0, 0x2020e0d0210832dbfbec%N); (20, 0, 0x2020e0d0210832dbfbec%N); (21, 0, 0x2020e0d0210832dbfbec%N); (22, 0, 0x2020e0d0210832dbfbec%N); (23, 0, 0x2020e0d0210832dbfbec%N); (24, 0, 0xc090210030db7bec%N); (25, 0, 0xc090210030db7bec%N); (26, 0, 0xc090210030db7bec%N); (27, 0, 0xc090210030db7bec%N); (28, 0, 0xc090210030db7bec%N); (29, 0, 0xc090210030db7bec%N); (30, 0, 0xc090210030db73a8%N); (31, 0, 0xc090210030db73a8%N); (32, 0, 0xc090210030db73a8%N); (33, 0, 0xc090210030db7128%N); (34, 0, 0xc090210030db7128%N); (35, 0, 0xc090210030db7128%N); (36, 0, 0x90210030db7128%N); (37, 0, 0x90210030db7128%N); (38, 0, 0x90210030db7128%N); (39, 0, 0x90210030db7128%N); (40, 0, 0x90210030db7128%N); (41, 0, 0x80010030da3128%N); (42, 0, 0x80010030da3128%N); (43, 0, 0x80010030da3128%N); (44, 0, 0x30da3128%N); (45, 0, 0x30da3128%N); (46, 0, 0x30da3120%N); (47, 0, 0x30da3120%N); (48, 0, 0x30ca3120%N); (49, 0, 0x30ca3120%N); (50, 0, 0x308a3120%N); (51, 0, 0x308a3120%N); (52, 0, 0x208a3120%N); (53, 0, 0x208a3120%N); (54, 0, 0x883120%N); (55, 0, 0x883120%N); (57, 0, 0x883120%N); (58, 0, 0x883120%N); (59, 0, 0x883120%N); (60, 0, 0x883120%N); (61, 0, 0x883120%N); (62, 0, 0x883120%N); (62, 2, 0x883120%N); (63, 0, 0x883120%N); (64, 0, 0x883120%N)]
     [(1%N, 1); (3%N, 2); (4%N, 3); (6%N, 4); (24%N, 7); (33%N, 13); (34%N, 14); (43%N, 19); (46%N, 21); (48%N, 23); (51%N, 26); (66%N, 34); (1000%N, 70); (1001%N, 69); (1003%N, 80); (1004%N, 47); (1005%N, 68); (1006%N, 44); (1007%N, 73); (1008%N, 71); (1009%N, 56); (1010%N, 45); (1011%N, 57); (1012%N, 63); (1013%N, 66); (1014%N, 67); (1015%N, 49); (1017%N, 226)];
   mkst [(0, 0, 0x2020e1d1210c32dffffc%N); (1, 0, 0x2020e1d1210c32dffffc%N); (2, 0, 0x2020e1d1210c32dffffc%N); (3, 0, 0x2020e1d1210c32dffffc%N); (4, 0, 0x2020e1d1210c32dffffc%N); (5, 0, 0x2020e1d1210c32dffffc%N); (6, 0, 0x2020e1d1210c32dffffc%N); (7, 0, 0x2020e1d1210c32dffffc%N); (8, 0, 0x2020e1d1210c32dffffc%N); (9, 0, 0x2020e1d1210c32dffffc%N); (10, 0, 0x2020e1d1210c32dffffc%N); (11, 0, 0x2020e1d1210c32dffffc%N); (12, 0, 0x2020e1d1210c32dffffc%N); (15, 0, 0x2020e0d0210832dbfbec%N); (16, 0, 0x2020e0d0210832dbfbec%N); (17, 0, 0x2020e0d0210832dbfbec%N); (18, 0, 0x2020e0d0210832dbfbec%N); (19, 0, 0x2020e0d0210832dbfbec%N); (20, 0, 0x2020e0d0210832dbfbec%N); (21, 0, 0x2020e0d0210832dbfbec%N); (22, 0, 0x2020e0d0210832dbfbec%N); (23, 0, 0x2020e0d0210832dbfbec%N); (24, 0, 0xc090210030db7bec%N); (25, 0, 0xc090210030db7bec%N); (26, 0, 0xc090210030db7bec%N); (27, 0, 0xc090210030db7bec%N); (28, 0, 0xc090210030db7bec%N); (29, 0, 0xc090210030db7bec%N); (30, 0, 0xc090210030db73a8%N); (31, 0, 0xc090210030db73a8%N); (32, 0, 0xc090210030db73a8%N); (33, 0, 0xc090210030db7128%N); (34, 0, 0xc090210030db7128%N); (35, 0, 0xc090210030db7128%N); (36, 0, 0x90210030db7128%N); (37, 0, 0x90210030db7128%N); (38, 0, 0x90210030db7128%N); (39, 0, 0x90210030db7128%N); (40, 0, 0x90210030db7128%N); (41, 0, 0x80010030da3128%N); (42, 0, 0x80010030da3128%N); (43, 0, 0x80010030da3128%N); (44, 0, 0x30da3128%N); (45, 0, 0x30da3128%N); (46, 0, 0x30da3120%N); (47, 0, 0x30da3120%N); (48, 0, 0x30ca3120%N); (49, 0, 0x30ca3120%N); (50, 0, 0x308a3120%N); (51, 0, 0x308a3120%N); (52, 0, 0x208a3120%N); (53, 0, 0x208a3120%N); (54, 0, 0x883120%N); (55, 0, 0x883120%N); (57, 0, 0x883120%N); (58, 0, 0x883120%N); (59, 0, 0x883120%N); (60, 0, 0x883120%N); (61, 0, 0x883120%N); (62, 0, 0x883120%N); (63, 0, 0x883120%N); (63, 2, 0x883120%N); (64, 0, 0x883120%N)]
     [(1%N, 1); (3%N, 2); (4%N, 3); (6%N, 4); (24%N, 7); (33%N, 13); (34%N, 14); (43%N, 19); (46%N, 21); (48%N, 23); (51%N, 26); (66%N, 34); (1000%N, 70); (1001%N, 69); (1003%N, 80); (1004%N, 47); (1005%N, 68); (1006%N, 44); (1007%N, 73); (1008%N, 71); (1009%N, 56); (1010%N, 45); (1011%N, 57); (1012%N, 63); (1013%N, 66); (1014%N, 67); (1015%N, 49); (1017%N, 227)];
   mkst [(0, 0, 0x2020e1d1210c32dffffc%N); (1, 0, 0x2020e1d1210c32dffffc%N); (2, 0, 0x2020e1d1210c32dffffc%N); (3, 0, 0x2020e1d1210c32dffffc%N); (4, 0, 0x2020e1d1210c32dffffc%N); (5, 0, 0x2020e1d1210c32dffffc%N); (6, 0, 0x2020e1d1210c32dffffc%N); (7, 0, 0x2020e1d1210c32dffffc%N); (8, 0, 0x2020e1d1210c32dffffc%N); (9, 0, 0x2020e1d1210c32dffffc%N); (10, 0, 0x2020e1d1210c32dffffc%N); (11, 0, 0x2020e1d1210c32dffffc%N); (12, 0, 0x2020e1d1210c32dffffc%N); (15, 0, 0x2020e0d0210832dbfbec%N); (16, 0, 0x2020e0d0210832dbfbec%N); (17, 0, 0x2020e0d0210832dbfbec%N); (18, 0, 0x2020e0d0210832dbfbec%N); (19, 0, 0x2020e0d0210832dbfbec%N); (20, 0, 0x2020e0d0210832dbfbec%N); (21, 0, 0x2020e0d0210832dbfbec%N); (22, 0, 0x2020e0d0210832dbfbec%N); (23, 0, 0x2020e0d0210832dbfbec%N); (24, 0, 0xc090210030db7bec%N); (25, 0, 0xc090210030db7bec%N); (26, 0, 0xc090210030db7bec%N); (27, 0, 0xc090210030db7bec%N); (28, 0, 0xc090210030db7bec%N); (29, 0, 0xc090210030db7bec%N); (30, 0, 0xc090210030db73a8%N); (31, 0, 0xc090210030db73a8%N); (32, 0, 0xc090210030db73a8%N); (33, 0, 0xc090210030db7128%N); (34, 0, 0xc090210030db7128%N); (35, 0, 0xc090210030db7128%N); (36, 0, 0x90210030db7128%N); (37, 0, 0x90210030db7128%N); (38, 0, 0x90210030db7128%N); (39, 0, 0x90210030db7128%N); (40, 0, 0x90210030db7128%N); (41, 0, 0x80010030da3128%N); (42, 0, 0x80010030da3128%N); (43, 0, 0x80010030da3128%N); (44, 0, 0x30da3128%N); (45, 0, 0x30da3128%N); (46, 0, 0x30da3120%N); (47, 0, 0x30da3120%N); (48, 0, 0x30ca3120%N); (49, 0, 0x30ca3120%N); (50, 0, 0x308a3120%N); (51, 0, 0x308a3120%N); (52, 0, 0x208a3120%N); (53, 0, 0x208a3120%N); (54, 0, 0x883120%N); (55, 0, 0x883120%N); (57, 0, 0x883120%N); (58, 0, 0x883120%N); (59, 0, 0x883120%N); (60, 0, 0x883120%N); (60, 2, 0x883120%N); (61, 0, 0x883120%N); (62, 0, 0x883120%N); (63, 0, 0x883120%N); (64, 0, 0x883120%N)]
     [(1%N, 1); (3%N, 2); (4%N, 3); (6%N, 4); (24%N, 7); (33%N, 13); (34%N, 14); (43%N, 19); (46%N, 21); (48%N, 23); (51%N, 26); (66%N, 34); (1000%N, 70); (1001%N, 69); (1003%N, 80); (1004%N, 47); (1005%N, 68); (1006%N, 44); (1007%N, 73); (1008%N, 71); (1009%N, 56); (1010%N, 45); (1011%N, 57); (1012%N, 63); (1013%N, 66); (1014%N, 67); (1015%N, 49); (1017%N, 228)];
   mkst [(0, 0, 0x2020e1d1210c32dffffc%N); (1, 0, 0x2020e1d1210c32dffffc%N); (2, 0, 0x2020e1d1210c32dffffc%N); (3, 0, 0x2020e1d1210c32dffffc%N); (4, 0, 0x2020e1d1210c32dffffc%N); (5, 0, 0x2020e1d1210c32dffffc%N); (6, 0, 0x2020e1d1210c32dffffc%N); (7, 0, 0x2020e1d1210c32dffffc%N); (8, 0, 0x2020e1d1210c32dffffc%N); (9, 0, 0x2020e1d1210c32dffffc%N); (10, 0, 0x2020e1d1210c32dffffc%N); (11, 0, 0x2020e1d1210c32dffffc%N); (12, 0, 0x2020e1d1210c32dffffc%N); (15, 0, 0x2020e0d0210832dbfbec%N); (16, 0, 0x2020e0d0210832dbfbec%N); (17, 0, 0x2020e0d0210832dbfbec%N); (18, 0, 0x2020e0d0210832dbfbec%N); (19, 0, 0x2020e0d0210832dbfbec%N); (20, 0, 0x2020e0d0210832dbfbec%N); (21, 0, 0x2020e0d0210832dbfbec%N); (22, 0, 0x2020e0d0210832dbfbec%N); (23, 0, 0x2020e0d0210832dbfbec%N); (24, 0, 0xc090210030db7bec%N); (25, 0, 0xc090210030db7bec%N); (26, 0, 0xc090210030db7bec%N); (27, 0, 0xc090210030db7bec%N); (28, 0, 0xc090210030db7bec%N); (29, 0, 0xc090210030db7bec%N); (30, 0, 0xc090210030db73a8%N); (31, 0, 0xc090210030db73a8%N); (32, 0, 0xc090210030db73a8%N); (33, 0, 0xc090210030db7128%N); (34, 0, 0xc090210030db7128%N); (35, 0, 0xc090210030db7128%N); (36, 0, 0x90210030db7128%N); (37, 0, 0x90210030db7128%N); (38, 0, 0x90210030db7128%N); (39, 0, 0x90210030db7128%N); (40, 0, 0x90210030db7128%N); (41, 0, 0x80010030da3128%N); (42, 0, 0x80010030da3128%N); (43, 0, 0x80010030da3128%N); (44, 0, 0x30da3128%N); (45, 0, 0x30da3128%N); (46, 0, 0x30da3120%N); (47, 0, 0x30da3120%N); (48, 0, 0x30ca3120%N); (49, 0, 0x30ca3120%N); (50, 0, 0x308a3120%N); (51, 0, 0x308a3120%N); (52, 0, 0x208a3120%N); (53, 0, 0x208a3120%N); (54, 0, 0x883120%N); (55, 0, 0x883120%N); (57, 0, 0x883120%N); (58, 0, 0x883120%N); (59, 0, 0x883120%N); (60, 0, 0x883120%N); (61, 0, 0x883120%N); (62, 0, 0x883120%N); (63, 0, 0x883120%N); (64, 0, 0x883120%N); (64, 2, 0x883120%N)]
     [(1%N, 1); (3%N, 2); (4%N, 3); (6%N, 4); (24%N, 7); (33%N, 13); (34%N, 14); (43%N, 19); (46%N, 21); (48%N, 23); (51%N, 26); (66%N, 34); (1000%N, 70); (1001%N, 69); (1003%N, 80); (1004%N, 47); (1005%N, 68); (1006%N, 44); (1007%N, 73); (1008%N, 71); (1009%N, 56); (1010%N, 45); (1011%N, 57); (1012%N, 63); (1013%N, 66); (1014%N, 67); (1015%N, 49); (1017%N, 229)];
   mkst [(4, 3, 0x2020e1d1210c32dffffc%N)]
     [];
   mkst [(69, 0, 0xfdb0a2646918c040170%N); (70, 0, 0xfdb0a2646918c040170%N); (71, 0, 0xfdb0a2646918c040170%N); (72, 0, 0xfdb0a2646918c040170%N); (73, 0, 0xfdb0a2646918c040170%N); (74, 0, 0xfdb0a2646918c040170%N); (79, 0, 0xfdb0a2646918c040170%N); (80, 0, 0xfdb0a2646918c040170%N); (81, 0, 0xfdb0a2646918c040170%N); (82, 0, 0xfdb0a2646918c040170%N); (83, 0, 0xfdb0a2646918c040170%N); (84, 0, 0xfdb0a2646918c040170%N); (85, 0, 0xfdb0a2646918c040170%N); (86, 0, 0xfdb0a2646918c040170%N); (87, 0, 0xfdb0a2646918c040170%N); (88, 0, 0xfdb0a2646918c040170%N); (89, 0, 0xfdb0a2646918c040170%N); (90, 0, 0xfdb0a2646918c040170%N); (91, 0, 0xfdb0a2646918c040170%N); (92, 0, 0xfdb0a2646918c040170%N); (93, 0, 0xfdb0a2646918c040170%N); (94, 0, 0xfdb0a2646918c040170%N); (95, 0, 0xfdb0a2646918c040170%N); (96, 0, 0xfdb0a2646918c040170%N); (97, 0, 0xfdb0a2646918c040170%N); (98, 0, 0xfdb0a2646918c040170%N); (99, 0, 0xfdb0a2646918c040170%N); (100, 0, 0x400000200000%N); (101, 0, 0x400000200000%N); (115, 0, 0xfdb0a2646918c040170%N); (116, 0, 0xfdb0a2646918c040170%N); (117, 0, 0xfdb0a2646918c040170%N); (118, 0, 0xfdb0a2646918c040170%N); (119, 0, 0xfdb0a2646918c040170%N); (124, 0, 0xfdb0a2646918c040170%N); (125, 0, 0xfdb0a2646918c040170%N); (126, 0, 0xfdb0a2646918c040170%N); (127, 0, 0xfdb0a2646918c040170%N); (143, 0, 0x40030%N); (144, 0, 0x40030%N); (145, 0, 0x40030%N); (146, 0, 0x40030%N); (149, 0, 0x20%N); (150, 0, 0x20%N); (151, 0, 0x120%N); (152, 0, 0x120%N); (153, 0, 0x120%N); (154, 0, 0x120%N); (155, 0, 0x120%N); (160, 0, 0x20%N); (161, 0, 0x20%N); (162, 0, 0x20%N); (163, 0, 0x40030%N); (163, 1, 0x40030%N); (164, 0, 0x40030%N); (165, 0, 0x40030%N); (166, 0, 0x40030%N); (167, 0, 0x40030%N); (168, 0, 0x40030%N); (169, 0, 0x40030%N); (170, 0, 0x40030%N); (170, 1, 0x40030%N); (171, 0, 0x40030%N); (171, 1, 0x40030%N); (172, 0, 0x40030%N); (173, 0, 0x40030%N)]
     [(4%N, 159); (5%N, 230); (6%N, 116); (18%N, 160); (26%N, 8); (27%N, 9); (31%N, 11); (32%N, 12); (36%N, 15); (39%N, 16); (41%N, 17); (42%N, 18); (49%N, 24); (50%N, 25); (53%N, 27); (57%N, 28); (59%N, 30); (64%N, 32); (65%N, 33); (67%N, 35); (68%N, 36); (70%N, 37); (71%N, 38); (72%N, 39); (73%N, 40); (74%N, 41); (75%N, 42); (1020%N, 232); (1021%N, 53); (1024%N, 75); (1025%N, 79); (1026%N, 77); (1027%N, 76); (1034%N, 55); (1037%N, 78); (1038%N, 62); (1041%N, 163); (1043%N, 235); (1044%N, 234); (1045%N, 233); (1048%N, 231); (1049%N, 162)];
   mkst [(0, 0, 0x2020e1d1210c325fcedc%N); (1, 0, 0x2020e1d1210c325fcedc%N); (2, 0, 0x2020e1d1210c325fcedc%N); (3, 0, 0x2020e1d1210c325fcedc%N); (4, 0, 0x2020e1d1210c325fcedc%N); (5, 0, 0x2020e1d1210c325fcedc%N); (6, 0, 0x2020e1d1210c325fcedc%N); (7, 0, 0x2020e1d1210c325fcedc%N); (8, 0, 0x2020e1d1210c325fcedc%N); (9, 0, 0x2020e1d1210c325fcedc%N); (10, 0, 0x2020e1d1210c325fcedc%N); (11, 0, 0x2020e1d1210c325fcedc%N); (12, 0, 0x2020e1d1210c325fcedc%N); (15, 0, 0x2020e0d02108325bcacc%N); (16, 0, 0x2020e0d02108325bcacc%N); (17, 0, 0x2020e0d02108325bcacc%N); (18, 0, 0x2020e0d02108325bcacc%N); (19, 0, 0x2020e0d02108325bcacc%N); (20, 0, 0x2020e0d02108325bcacc%N); (21, 0, 0x2020e0d02108325bcacc%N); (22, 0, 0x2020e0d02108325bcacc%N); (23, 0, 0x2020e0d02108325bcacc%N); (24, 0, 0xc0902100305b4acc%N); (25, 0, 0xc0902100305b4acc%N); (26, 0, 0xc0902100305b4acc%N); (27, 0, 0xc0902100305b4acc%N); (28, 0, 0xc0902100305b4acc%N); (29, 0, 0xc0902100305b4acc%N); (30, 0, 0xc0902100305b4288%N); (31, 0, 0xc0902100305b4288%N); (32, 0, 0xc0902100305b4288%N); (33, 0, 0xc0902100305b4008%N); (34, 0, 0xc0902100305b4008%N); (35, 0, 0xc0902100305b4008%N); (36, 0, 0x902100305b4008%N); (37, 0, 0x902100305b4008%N); (38, 0, 0x902100305b4008%N); (39, 0, 0x902100305b4008%N); (40, 0, 0x902100305b4008%N); (41, 0, 0x800100305a0008%N); (42, 0, 0x800100305a0008%N); (43, 0, 0x800100305a0008%N); (44, 0, 0x305a0008%N); (45, 0, 0x305a0008%N); (46, 0, 0x305a0000%N); (47, 0, 0x305a0000%N); (48, 0, 0x304a0000%N); (49, 0, 0x304a0000%N); (50, 0, 0x300a0000%N); (51, 0, 0x300a0000%N); (52, 0, 0x200a0000%N); (53, 0, 0x200a0000%N); (54, 0, 0x80000%N); (55, 0, 0x80000%N); (57, 0, 0x80000%N); (58, 0, 0x80000%N); (59, 0, 0x80000%N); (60, 0, 0x80000%N); (61, 0, 0x80000%N); (62, 0, 0x80000%N); (63, 0, 0x80000%N); (64, 0, 0x80000%N); (164, 1, 0x40130%N); (165, 1, 0x40130%N); (168, 1, 0x40130%N)]
     [(1%N, 1); (3%N, 2); (4%N, 3); (6%N, 236); (19%N, 237); (24%N, 7); (33%N, 13); (34%N, 14); (43%N, 19); (46%N, 21); (48%N, 23); (51%N, 26); (66%N, 34); (1000%N, 70); (1001%N, 69); (1003%N, 80); (1004%N, 47); (1005%N, 68); (1006%N, 44); (1007%N, 73); (1008%N, 71); (1009%N, 56); (1010%N, 45); (1011%N, 57); (1012%N, 63); (1013%N, 66); (1014%N, 67); (1015%N, 49); (1017%N, 238)];
   mkst [(159, 2, 0x20%N)]
     [];
   mkst [(161, 1, 0x120%N); (166, 1, 0x40130%N); (167, 1, 0x40130%N); (169, 1, 0x40130%N); (172, 1, 0x40130%N); (173, 1, 0x40130%N)]
     [(4%N, 239); (18%N, 240)];
   mkst [(160, 1, 0x20%N); (162, 1, 0x20%N); (163, 0, 0x40030%N); (164, 0, 0x40030%N); (165, 0, 0x40030%N); (166, 0, 0x40030%N); (167, 0, 0x40030%N); (168, 0, 0x40030%N); (169, 0, 0x40030%N); (170, 0, 0x40030%N); (171, 0, 0x40030%N); (172, 0, 0x40030%N); (173, 0, 0x40030%N)]
     [(4%N, 159); (18%N, 160); (1049%N, 241)];
   mkst [(107, 2, 0xf930824449188043070%N)]
     [];
   mkst [(0, 0, 0xc191210430df7ffc%N); (1, 0, 0xc191210430df7ffc%N); (2, 0, 0xc191210430df7ffc%N); (3, 0, 0xc191210430df7ffc%N); (4, 0, 0xc191210430df7ffc%N); (5, 0, 0xc191210430df7ffc%N); (6, 0, 0xc191210430df7ffc%N); (7, 0, 0xc191210430df7ffc%N); (8, 0, 0xc191210430df7ffc%N); (9, 0, 0xc191210430df7ffc%N); (10, 0, 0xc191210430df7ffc%N); (11, 0, 0xc191210430df7ffc%N); (12, 0, 0xc191210430df7ffc%N); (15, 0, 0xc090210030db7bec%N); (16, 0, 0xc090210030db7bec%N); (17, 0, 0xc090210030db7bec%N); (18, 0, 0xc090210030db7bec%N); (19, 0, 0xc090210030db7bec%N); (20, 0, 0xc090210030db7bec%N); (21, 0, 0xc090210030db7bec%N); (22, 0, 0xc090210030db7bec%N); (23, 0, 0xc090210030db7bec%N); (24, 0, 0xc090210030db7bec%N); (25, 0, 0xc090210030db7bec%N); (25, 3, 0xc090210030db7bec%N)]
     [(1%N, 1); (3%N, 2); (4%N, 3); (6%N, 4); (24%N, 7); (33%N, 13); (34%N, 14); (43%N, 19); (46%N, 21); (48%N, 23); (51%N, 26); (66%N, 34); (1000%N, 70); (1001%N, 69); (1003%N, 180); (1004%N, 242)];
   mkst [(195, 3, 0x1fdf1e2fded7cda0205b%N)]
     [];
   mkst [(197, 2, 0x1fdf1e2fde97cda0205a%N)]
     [];
   mkst [(77, 1, 0x2100%N); (78, 1, 0x2100%N)]
     [(15%N, 187)];
   mkst [(122, 1, 0x800100%N); (123, 1, 0x800100%N)]
     [(15%N, 243)];
   mkst [(120, 1, 0x800100%N)]
     [];
   mkst [(115, 3, 0xfdb0a2646918c043170%N); (117, 3, 0xfdb0a2646918c043170%N); (121, 1, 0x800100%N)]
     [(8%N, 244); (23%N, 245)];
   mkst [(116, 3, 0xfdb0a2646918c043170%N); (118, 3, 0xfdb0a2646918c043170%N); (120, 0, 0x800100%N); (121, 0, 0x800100%N); (122, 0, 0x800100%N); (123, 0, 0x800100%N)]
     [(46%N, 169); (1035%N, 246); (1036%N, 170)];
   mkst [(0, 0, 0x2020e1d1210c3257efdc%N); (1, 0, 0x2020e1d1210c3257efdc%N); (2, 0, 0x2020e1d1210c3257efdc%N); (3, 0, 0x2020e1d1210c3257efdc%N); (4, 0, 0x2020e1d1210c3257efdc%N); (5, 0, 0x2020e1d1210c3257efdc%N); (6, 0, 0x2020e1d1210c3257efdc%N); (7, 0, 0x2020e1d1210c3257efdc%N); (8, 0, 0x2020e1d1210c3257efdc%N); (9, 0, 0x2020e1d1210c3257efdc%N); (10, 0, 0x2020e1d1210c3257efdc%N); (11, 0, 0x2020e1d1210c3257efdc%N); (12, 0, 0x2020e1d1210c3257efdc%N); (15, 0, 0x2020e0d021083253ebcc%N); (16, 0, 0x2020e0d021083253ebcc%N); (17, 0, 0x2020e0d021083253ebcc%N); (18, 0, 0x2020e0d021083253ebcc%N); (19, 0, 0x2020e0d021083253ebcc%N); (20, 0, 0x2020e0d021083253ebcc%N); (21, 0, 0x2020e0d021083253ebcc%N); (22, 0, 0x2020e0d021083253ebcc%N); (23, 0, 0x2020e0d021083253ebcc%N); (24, 0, 0xc090210030536bcc%N); (25, 0, 0xc090210030536bcc%N); (26, 0, 0xc090210030536bcc%N); (27, 0, 0xc090210030536bcc%N); (28, 0, 0xc090210030536bcc%N); (29, 0, 0xc090210030536bcc%N); (30, 0, 0xc090210030536388%N); (31, 0, 0xc090210030536388%N); (32, 0, 0xc090210030536388%N); (33, 0, 0xc090210030536108%N); (34, 0, 0xc090210030536108%N); (35, 0, 0xc090210030536108%N); (36, 0, 0x90210030536108%N); (37, 0, 0x90210030536108%N); (38, 0, 0x90210030536108%N); (39, 0, 0x90210030536108%N); (40, 0, 0x90210030536108%N); (41, 0, 0x80010030522108%N); (42, 0, 0x80010030522108%N); (43, 0, 0x80010030522108%N); (44, 0, 0x30522108%N); (45, 0, 0x30522108%N); (46, 0, 0x30522100%N); (47, 0, 0x30522100%N); (48, 0, 0x30422100%N); (49, 0, 0x30422100%N); (50, 0, 0x30022100%N); (51, 0, 0x30022100%N); (52, 0, 0x20022100%N); (53, 0, 0x20022100%N); (54, 0, 0x2100%N); (55, 0, 0x2100%N); (57, 0, 0x2100%N); (58, 0, 0x2100%N); (59, 0, 0x2100%N); (60, 0, 0x2100%N); (61, 0, 0x2100%N); (62, 0, 0x2100%N); (63, 0, 0x2100%N); (64, 0, 0x2100%N); (65, 0, 0x2100%N); (66, 0, 0x2100%N); (186, 0, 0x4000948060100007a%N); (187, 0, 0x4000948060100007a%N); (205, 3, 0x1fdf1e2fded7cda0205b%N); (206, 3, 0x1fdf1e2fded7cda0205b%N)]
     [(1%N, 1); (3%N, 2); (4%N, 3); (6%N, 4); (13%N, 5); (24%N, 7); (33%N, 13); (34%N, 14); (43%N, 19); (46%N, 21); (48%N, 23); (51%N, 26); (66%N, 34); (1000%N, 70); (1001%N, 69); (1003%N, 80); (1004%N, 47); (1005%N, 68); (1006%N, 44); (1007%N, 73); (1008%N, 71); (1009%N, 56); (1010%N, 45); (1011%N, 57); (1012%N, 63); (1013%N, 66); (1014%N, 67); (1015%N, 49); (1017%N, 46); (1018%N, 58); (1055%N, 247)];
   mkst [(0, 0, 0x2020e1d1210c3257efdc%N); (1, 0, 0x2020e1d1210c3257efdc%N); (2, 0, 0x2020e1d1210c3257efdc%N); (3, 0, 0x2020e1d1210c3257efdc%N); (4, 0, 0x2020e1d1210c3257efdc%N); (5, 0, 0x2020e1d1210c3257efdc%N); (6, 0, 0x2020e1d1210c3257efdc%N); (7, 0, 0x2020e1d1210c3257efdc%N); (8, 0, 0x2020e1d1210c3257efdc%N); (9, 0, 0x2020e1d1210c3257efdc%N); (10, 0, 0x2020e1d1210c3257efdc%N); (11, 0, 0x2020e1d1210c3257efdc%N); (12, 0, 0x2020e1d1210c3257efdc%N); (15, 0, 0x2020e0d021083253ebcc%N); (16, 0, 0x2020e0d021083253ebcc%N); (17, 0, 0x2020e0d021083253ebcc%N); (18, 0, 0x2020e0d021083253ebcc%N); (19, 0, 0x2020e0d021083253ebcc%N); (20, 0, 0x2020e0d021083253ebcc%N); (21, 0, 0x2020e0d021083253ebcc%N); (22, 0, 0x2020e0d021083253ebcc%N); (23, 0, 0x2020e0d021083253ebcc%N); (24, 0, 0xc090210030536bcc%N); (25, 0, 0xc090210030536bcc%N); (26, 0, 0xc090210030536bcc%N); (27, 0, 0xc090210030536bcc%N); (28, 0, 0xc090210030536bcc%N); (29, 0, 0xc090210030536bcc%N); (30, 0, 0xc090210030536388%N); (31, 0, 0xc090210030536388%N); (32, 0, 0xc090210030536388%N); (33, 0, 0xc090210030536108%N); (34, 0, 0xc090210030536108%N); (35, 0, 0xc090210030536108%N); (36, 0, 0x90210030536108%N); (37, 0, 0x90210030536108%N); (38, 0, 0x90210030536108%N); (39, 0, 0x90210030536108%N); (40, 0, 0x90210030536108%N); (41, 0, 0x80010030522108%N); (42, 0, 0x80010030522108%N); (43, 0, 0x80010030522108%N); (44, 0, 0x30522108%N); (45, 0, 0x30522108%N); (46, 0, 0x30522100%N); (47, 0, 0x30522100%N); (48, 0, 0x30422100%N); (49, 0, 0x30422100%N); (50, 0, 0x30022100%N); (51, 0, 0x30022100%N); (52, 0, 0x20022100%N); (53, 0, 0x20022100%N); (54, 0, 0x2100%N); (55, 0, 0x2100%N); (57, 0, 0x2100%N); (58, 0, 0x2100%N); (59, 0, 0x2100%N); (60, 0, 0x2100%N); (61, 0, 0x2100%N); (62, 0, 0x2100%N); (63, 0, 0x2100%N); (64, 0, 0x2100%N); (65, 0, 0x2100%N); (66, 0, 0x2100%N); (186, 0, 0x4000948060100007a%N); (187, 0, 0x4000948060100007a%N); (203, 3, 0x1fdf1e2fded7cda0205b%N); (204, 3, 0x1fdf1e2fded7cda0205b%N)]
     [(1%N, 1); (3%N, 2); (4%N, 3); (6%N, 4); (13%N, 5); (24%N, 7); (33%N, 13); (34%N, 14); (43%N, 19); (46%N, 21); (48%N, 23); (51%N, 26); (66%N, 34); (1000%N, 70); (1001%N, 69); (1003%N, 80); (1004%N, 47); (1005%N, 68); (1006%N, 44); (1007%N, 73); (1008%N, 71); (1009%N, 56); (1010%N, 45); (1011%N, 57); (1012%N, 63); (1013%N, 66); (1014%N, 67); (1015%N, 49); (1017%N, 46); (1018%N, 58); (1055%N, 248)];
   mkst [(66, 1, 0x120%N); (200, 3, 0x1fdf1e2fded7cda0205b%N); (201, 3, 0x1fdf1e2fded7cda0205b%N)]
     [(5%N, 249); (8%N, 128)];
   mkst [(209, 3, 0x1fdf1e2fded7cda0205b%N)]
     [];
   mkst [(23, 3, 0x2020e0d0210832dbfbec%N)]
     [(5%N, 250)];
   mkst [(66, 1, 0x120%N); (202, 3, 0x1fdf1e2fded7cda0205b%N)]
     [(5%N, 251); (8%N, 128)];
   mkst [(27, 1, 0xc090210030db7bec%N); (28, 1, 0xc090210030db7bec%N); (29, 1, 0xc090210030db7bec%N); (31, 3, 0xc090210030db73a8%N)]
     [(2%N, 134); (6%N, 135); (11%N, 136)];
   mkst [(24, 1, 0xc090210030db7bec%N)]
     [];
   mkst [(27, 1, 0xc090210030db7bec%N); (28, 1, 0xc090210030db7bec%N); (29, 1, 0xc090210030db7bec%N); (32, 3, 0xc090210030db73a8%N)]
     [(2%N, 134); (6%N, 135); (11%N, 136)];
   mkst [(42, 1, 0x80010030da3128%N); (43, 1, 0x80010030da3128%N); (45, 3, 0x30da3128%N)]
     [(40%N, 125); (55%N, 126)];
   mkst [(131, 2, 0xfdb0a2606918c24b130%N)]
     [(5%N, 252)];
   mkst [(145, 2, 0x400000040130%N)]
     [];
   mkst [(147, 1, 0x80c08094807010c017a%N)]
     [];
   mkst [(124, 0, 0x8000800400100040170%N); (125, 0, 0x8000800400100040170%N); (126, 0, 0x8000800400100040170%N); (143, 0, 0x400000040130%N); (144, 0, 0x400000040130%N); (144, 2, 0x400000040130%N); (145, 0, 0x400000040130%N); (146, 0, 0x400000040130%N); (146, 2, 0x400000040130%N); (148, 1, 0x8000800400100040170%N)]
     [(6%N, 116); (32%N, 12); (59%N, 30); (75%N, 42); (1037%N, 254); (1041%N, 253)];
   mkst [(0, 0, 0x2020e1d1210c3257efdc%N); (1, 0, 0x2020e1d1210c3257efdc%N); (2, 0, 0x2020e1d1210c3257efdc%N); (3, 0, 0x2020e1d1210c3257efdc%N); (4, 0, 0x2020e1d1210c3257efdc%N); (5, 0, 0x2020e1d1210c3257efdc%N); (6, 0, 0x2020e1d1210c3257efdc%N); (7, 0, 0x2020e1d1210c3257efdc%N); (8, 0, 0x2020e1d1210c3257efdc%N); (9, 0, 0x2020e1d1210c3257efdc%N); (10, 0, 0x2020e1d1210c3257efdc%N); (11, 0, 0x2020e1d1210c3257efdc%N); (12, 0, 0x2020e1d1210c3257efdc%N); (15, 0, 0x2020e0d021083253ebcc%N); (16, 0, 0x2020e0d021083253ebcc%N); (17, 0, 0x2020e0d021083253ebcc%N); (18, 0, 0x2020e0d021083253ebcc%N); (19, 0, 0x2020e0d021083253ebcc%N); (20, 0, 0x2020e0d021083253ebcc%N); (21, 0, 0x2020e0d021083253ebcc%N); (22, 0, 0x2020e0d021083253ebcc%N); (23, 0, 0x2020e0d021083253ebcc%N); (24, 0, 0xc090210030536bcc%N); (25, 0, 0xc090210030536bcc%N); (26, 0, 0xc090210030536bcc%N); (27, 0, 0xc090210030536bcc%N); (28, 0, 0xc090210030536bcc%N); (29, 0, 0xc090210030536bcc%N); (30, 0, 0xc090210030536388%N); (31, 0, 0xc090210030536388%N); (32, 0, 0xc090210030536388%N); (33, 0, 0xc090210030536108%N); (34, 0, 0xc090210030536108%N); (35, 0, 0xc090210030536108%N); (36, 0, 0x90210030536108%N); (37, 0, 0x90210030536108%N); (38, 0, 0x90210030536108%N); (39, 0, 0x90210030536108%N); (40, 0, 0x90210030536108%N); (41, 0, 0x80010030522108%N); (42, 0, 0x80010030522108%N); (43, 0, 0x80010030522108%N); (44, 0, 0x30522108%N); (45, 0, 0x30522108%N); (46, 0, 0x30522100%N); (47, 0, 0x30522100%N); (48, 0, 0x30422100%N); (49, 0, 0x30422100%N); (50, 0, 0x30022100%N); (51, 0, 0x30022100%N); (52, 0, 0x20022100%N); (53, 0, 0x20022100%N); (54, 0, 0x2100%N); (55, 0, 0x2100%N); (57, 0, 0x2100%N); (58, 0, 0x2100%N); (59, 0, 0x2100%N); (60, 0, 0x2100%N); (61, 0, 0x2100%N); (62, 0, 0x2100%N); (63, 0, 0x2100%N); (64, 0, 0x2100%N); (78, 2, 0x2100%N); (174, 0, 0x2100%N); (175, 0, 0x2100%N); (176, 0, 0x2100%N)]
     [(1%N, 1); (3%N, 2); (4%N, 3); (6%N, 4); (21%N, 255); (24%N, 7); (33%N, 13); (34%N, 14); (43%N, 19); (46%N, 21); (48%N, 23); (51%N, 26); (66%N, 34); (1000%N, 70); (1001%N, 69); (1003%N, 80); (1004%N, 47); (1005%N, 68); (1006%N, 44); (1007%N, 73); (1008%N, 71); (1009%N, 56); (1010%N, 45); (1011%N, 57); (1012%N, 63); (1013%N, 66); (1014%N, 67); (1015%N, 49); (1017%N, 256); (1050%N, 257)];
   mkst [(213, 3, 0x1fdf1e2fde97cd20205b%N)]
     [];
   mkst [(214, 1, 0xfdb0a2606918c200000%N)]
     [];
   mkst [(67, 0, 0xfdb0a2606918c200000%N); (68, 0, 0xfdb0a2606918c200000%N); (69, 0, 0xfdb0a2646918c002050%N); (70, 0, 0xfdb0a2646918c002050%N); (71, 0, 0xfdb0a2646918c002050%N); (72, 0, 0xfdb0a2646918c002050%N); (73, 0, 0xfdb0a2646918c002050%N); (74, 0, 0xfdb0a2646918c002050%N); (79, 0, 0xfdb0a2646918c002050%N); (80, 0, 0xfdb0a2646918c002050%N); (81, 0, 0xfdb0a2646918c002050%N); (82, 0, 0xfdb0a2646918c002050%N); (83, 0, 0xfdb0a2646918c002050%N); (84, 0, 0xfdb0a2646918c002050%N); (85, 0, 0xfdb0a2646918c002050%N); (86, 0, 0xfdb0a2646918c002050%N); (87, 0, 0xfdb0a2646918c002050%N); (88, 0, 0xfdb0a2646918c002050%N); (89, 0, 0xfdb0a2646918c002050%N); (90, 0, 0xfdb0a2646918c002050%N); (91, 0, 0xfdb0a2646918c002050%N); (92, 0, 0xfdb0a2646918c002050%N); (93, 0, 0xfdb0a2646918c002050%N); (94, 0, 0xfdb0a2646918c002050%N); (95, 0, 0xfdb0a2646918c002050%N); (96, 0, 0xfdb0a2646918c002050%N); (97, 0, 0xfdb0a2646918c002050%N); (98, 0, 0xfdb0a2646918c002050%N); (99, 0, 0xfdb0a2646918c002050%N); (100, 0, 0x400000200000%N); (101, 0, 0x400000200000%N); (115, 0, 0xfdb0a2646918c002050%N); (116, 0, 0xfdb0a2646918c002050%N); (117, 0, 0xfdb0a2646918c002050%N); (118, 0, 0xfdb0a2646918c002050%N); (119, 0, 0xfdb0a2646918c002050%N); (124, 0, 0xfdb0a2646918c002050%N); (125, 0, 0xfdb0a2646918c002050%N); (126, 0, 0xfdb0a2646918c002050%N); (127, 0, 0xfdb0a2646918c002050%N); (194, 0, 0x1fdf1e2fde97cd20205b%N); (195, 0, 0x1fdf1e2fde97cd20205b%N); (212, 3, 0x1fdf1e2fde97cd20205b%N); (215, 1, 0xfdb0a2606918c200000%N)]
     [(21%N, 6); (26%N, 8); (27%N, 9); (31%N, 11); (32%N, 12); (36%N, 15); (39%N, 16); (41%N, 17); (42%N, 18); (49%N, 24); (50%N, 25); (53%N, 27); (57%N, 28); (59%N, 30); (64%N, 32); (65%N, 33); (67%N, 35); (68%N, 36); (70%N, 37); (71%N, 38); (72%N, 39); (73%N, 40); (74%N, 41); (75%N, 42); (1019%N, 259); (1020%N, 95); (1021%N, 53); (1024%N, 75); (1025%N, 79); (1026%N, 77); (1027%N, 76); (1034%N, 55); (1037%N, 78); (1038%N, 62); (1059%N, 258)];
   mkst [(69, 0, 0xfdb0a2646918c040170%N); (70, 0, 0xfdb0a2646918c040170%N); (71, 0, 0xfdb0a2646918c040170%N); (72, 0, 0xfdb0a2646918c040170%N); (73, 0, 0xfdb0a2646918c040170%N); (74, 0, 0xfdb0a2646918c040170%N); (79, 0, 0xfdb0a2646918c040170%N); (80, 0, 0xfdb0a2646918c040170%N); (81, 0, 0xfdb0a2646918c040170%N); (82, 0, 0xfdb0a2646918c040170%N); (83, 0, 0xfdb0a2646918c040170%N); (84, 0, 0xfdb0a2646918c040170%N); (85, 0, 0xfdb0a2646918c040170%N); (86, 0, 0xfdb0a2646918c040170%N); (87, 0, 0xfdb0a2646918c040170%N); (88, 0, 0xfdb0a2646918c040170%N); (89, 0, 0xfdb0a2646918c040170%N); (90, 0, 0xfdb0a2646918c040170%N); (91, 0, 0xfdb0a2646918c040170%N); (92, 0, 0xfdb0a2646918c040170%N); (93, 0, 0xfdb0a2646918c040170%N); (94, 0, 0xfdb0a2646918c040170%N); (95, 0, 0xfdb0a2646918c040170%N); (96, 0, 0xfdb0a2646918c040170%N); (97, 0, 0xfdb0a2646918c040170%N); (98, 0, 0xfdb0a2646918c040170%N); (99, 0, 0xfdb0a2646918c040170%N); (100, 0, 0x400000200000%N); (101, 0, 0x400000200000%N); (115, 0, 0xfdb0a2646918c040170%N); (116, 0, 0xfdb0a2646918c040170%N); (117, 0, 0xfdb0a2646918c040170%N); (118, 0, 0xfdb0a2646918c040170%N); (119, 0, 0xfdb0a2646918c040170%N); (124, 0, 0xfdb0a2646918c040170%N); (125, 0, 0xfdb0a2646918c040170%N); (126, 0, 0xfdb0a2646918c040170%N); (127, 0, 0xfdb0a2646918c040170%N); (140, 2, 0xfdb0a2606918c24b130%N); (141, 2, 0xfdb0a2606918c24b130%N); (142, 2, 0xfdb0a2606918c24b130%N); (149, 0, 0x20%N); (150, 0, 0x20%N); (151, 0, 0x120%N); (152, 0, 0x120%N); (153, 0, 0x120%N); (154, 0, 0x120%N); (155, 0, 0x120%N); (156, 0, 0x120%N); (157, 0, 0x120%N)]
     [(5%N, 260); (26%N, 8); (27%N, 9); (31%N, 11); (32%N, 12); (36%N, 15); (39%N, 16); (41%N, 17); (42%N, 18); (46%N, 261); (49%N, 24); (50%N, 25); (53%N, 27); (57%N, 28); (59%N, 30); (64%N, 32); (65%N, 33); (67%N, 35); (68%N, 36); (70%N, 37); (71%N, 38); (72%N, 39); (73%N, 40); (74%N, 41); (75%N, 42); (1020%N, 232); (1021%N, 53); (1024%N, 75); (1025%N, 79); (1026%N, 77); (1027%N, 76); (1034%N, 55); (1037%N, 78); (1038%N, 62); (1043%N, 263); (1044%N, 234); (1045%N, 233); (1046%N, 262)];
   mkst [(0, 0, 0x2020e1d1210c325fcedc%N); (1, 0, 0x2020e1d1210c325fcedc%N); (2, 0, 0x2020e1d1210c325fcedc%N); (3, 0, 0x2020e1d1210c325fcedc%N); (4, 0, 0x2020e1d1210c325fcedc%N); (5, 0, 0x2020e1d1210c325fcedc%N); (6, 0, 0x2020e1d1210c325fcedc%N); (7, 0, 0x2020e1d1210c325fcedc%N); (8, 0, 0x2020e1d1210c325fcedc%N); (9, 0, 0x2020e1d1210c325fcedc%N); (10, 0, 0x2020e1d1210c325fcedc%N); (11, 0, 0x2020e1d1210c325fcedc%N); (12, 0, 0x2020e1d1210c325fcedc%N); (15, 0, 0x2020e0d02108325bcacc%N); (16, 0, 0x2020e0d02108325bcacc%N); (17, 0, 0x2020e0d02108325bcacc%N); (18, 0, 0x2020e0d02108325bcacc%N); (19, 0, 0x2020e0d02108325bcacc%N); (20, 0, 0x2020e0d02108325bcacc%N); (21, 0, 0x2020e0d02108325bcacc%N); (22, 0, 0x2020e0d02108325bcacc%N); (23, 0, 0x2020e0d02108325bcacc%N); (24, 0, 0xc0902100305b4acc%N); (25, 0, 0xc0902100305b4acc%N); (26, 0, 0xc0902100305b4acc%N); (27, 0, 0xc0902100305b4acc%N); (28, 0, 0xc0902100305b4acc%N); (29, 0, 0xc0902100305b4acc%N); (30, 0, 0xc0902100305b4288%N); (31, 0, 0xc0902100305b4288%N); (32, 0, 0xc0902100305b4288%N); (33, 0, 0xc0902100305b4008%N); (34, 0, 0xc0902100305b4008%N); (35, 0, 0xc0902100305b4008%N); (36, 0, 0x902100305b4008%N); (37, 0, 0x902100305b4008%N); (38, 0, 0x902100305b4008%N); (39, 0, 0x902100305b4008%N); (40, 0, 0x902100305b4008%N); (41, 0, 0x800100305a0008%N); (42, 0, 0x800100305a0008%N); (43, 0, 0x800100305a0008%N); (44, 0, 0x305a0008%N); (45, 0, 0x305a0008%N); (46, 0, 0x305a0000%N); (47, 0, 0x305a0000%N); (48, 0, 0x304a0000%N); (49, 0, 0x304a0000%N); (50, 0, 0x300a0000%N); (51, 0, 0x300a0000%N); (52, 0, 0x200a0000%N); (53, 0, 0x200a0000%N); (54, 0, 0x80000%N); (55, 0, 0x80000%N); (57, 0, 0x80000%N); (58, 0, 0x80000%N); (59, 0, 0x80000%N); (60, 0, 0x80000%N); (61, 0, 0x80000%N); (62, 0, 0x80000%N); (63, 0, 0x80000%N); (64, 0, 0x80000%N); (124, 0, 0x80c080948070108005a%N); (125, 0, 0x80c080948070108005a%N); (126, 0, 0x80c080948070108005a%N); (132, 2, 0xfdb0a2606918c24b130%N); (133, 2, 0xfdb0a2606918c24b130%N); (134, 2, 0xfdb0a2606918c24b130%N); (135, 2, 0xfdb0a2606918c24b130%N); (136, 2, 0xfdb0a2606918c24b130%N); (137, 2, 0xfdb0a2606918c24b130%N); (138, 2, 0xfdb0a2606918c24b130%N); (139, 2, 0xfdb0a2606918c24b130%N); (147, 0, 0x80c080948070108005a%N); (148, 0, 0x80c080948070108005a%N)]
     [(1%N, 1); (3%N, 2); (4%N, 3); (6%N, 264); (19%N, 265); (24%N, 7); (32%N, 12); (33%N, 13); (34%N, 14); (43%N, 19); (46%N, 21); (48%N, 23); (51%N, 26); (59%N, 30); (66%N, 34); (67%N, 266); (75%N, 42); (1000%N, 70); (1001%N, 69); (1003%N, 80); (1004%N, 47); (1005%N, 68); (1006%N, 44); (1007%N, 73); (1008%N, 71); (1009%N, 56); (1010%N, 45); (1011%N, 57); (1012%N, 63); (1013%N, 66); (1014%N, 67); (1015%N, 49); (1017%N, 267); (1037%N, 185); (1042%N, 268)];
   mkst [(76, 2, 0x2100%N); (77, 0, 0x2100%N); (78, 0, 0x2100%N); (128, 0, 0xa100%N); (129, 0, 0xa100%N); (130, 0, 0x4a110%N); (131, 0, 0x4a110%N); (132, 0, 0x4a110%N); (133, 0, 0x4a110%N); (134, 0, 0x4a110%N); (135, 0, 0x4a110%N); (136, 0, 0x4a110%N); (137, 0, 0x4a110%N); (138, 0, 0x4a110%N); (139, 0, 0x4a110%N); (140, 0, 0x4a110%N); (141, 0, 0x4a110%N); (142, 0, 0x4a110%N); (143, 0, 0x400000000010%N); (144, 0, 0x400000000010%N); (145, 0, 0x400000000010%N); (146, 0, 0x400000000010%N)]
     [(4%N, 115); (6%N, 116); (46%N, 118); (1023%N, 269); (1039%N, 168); (1040%N, 121); (1041%N, 124)];
   mkst [(68, 3, 0x1fdf1e2fde97cda0205b%N)]
     [];
   mkst [(129, 2, 0xfdb0a2606918c20b120%N); (132, 1, 0xfdb0a2606918c24b130%N); (133, 1, 0xfdb0a2606918c24b130%N); (134, 1, 0xfdb0a2606918c24b130%N); (135, 1, 0xfdb0a2606918c24b130%N); (136, 1, 0xfdb0a2606918c24b130%N); (137, 1, 0xfdb0a2606918c24b130%N); (138, 1, 0xfdb0a2606918c24b130%N); (139, 1, 0xfdb0a2606918c24b130%N); (140, 1, 0xfdb0a2606918c24b130%N); (141, 1, 0xfdb0a2606918c24b130%N); (142, 1, 0xfdb0a2606918c24b130%N)]
     [(4%N, 191); (18%N, 192)];
   mkst [(37, 1, 0x90210030db7128%N); (38, 1, 0x90210030db7128%N); (39, 1, 0x90210030db7128%N); (40, 1, 0x90210030db7128%N); (42, 3, 0x80010030da3128%N)]
     [(14%N, 143); (16%N, 144); (45%N, 145); (52%N, 146)];
   mkst [(37, 1, 0x90210030db7128%N); (38, 1, 0x90210030db7128%N); (39, 1, 0x90210030db7128%N); (40, 1, 0x90210030db7128%N); (43, 3, 0x80010030da3128%N)]
     [(14%N, 143); (16%N, 144); (45%N, 145); (52%N, 146)];
   mkst [(45, 1, 0x30da3128%N); (47, 3, 0x30da3120%N)]
     [(3%N, 113)];
   mkst [(66, 3, 0x83120%N)]
     [];
   mkst [(47, 1, 0x30da3120%N); (49, 3, 0x30ca3120%N)]
     [(20%N, 127)];
   mkst [(49, 1, 0x30ca3120%N); (51, 3, 0x308a3120%N)]
     [(22%N, 130)];
   mkst [(55, 3, 0x883120%N); (66, 1, 0x1100%N)]
     [(8%N, 128); (12%N, 270)];
   mkst [(51, 1, 0x308a3120%N); (53, 3, 0x208a3120%N)]
     [(28%N, 131)];
   mkst [(29, 3, 0xc090210030db7bec%N)]
     [];
   mkst [(27, 3, 0xc090210030db7bec%N)]
     [];
   mkst [(28, 3, 0xc090210030db7bec%N)]
     [];
   mkst [(6, 3, 0x2020e1d1210c32dffffc%N)]
     [];
   mkst [(7, 3, 0x2020e1d1210c32dffffc%N); (14, 1, 0x120%N)]
     [(5%N, 271); (8%N, 272)];
   mkst [(13, 1, 0x120%N)]
     [];
   mkst [(11, 3, 0x2020e1d1210c32dffffc%N)]
     [];
   mkst [(8, 3, 0x2020e1d1210c32dffffc%N); (66, 1, 0x80100%N)]
     [(8%N, 128); (19%N, 273)];
   mkst [(12, 3, 0x2020e1d1210c32dffffc%N)]
     [];
   mkst [(34, 1, 0xc090210030db7128%N); (35, 1, 0xc090210030db7128%N); (37, 3, 0x90210030db7128%N)]
     [(62%N, 147); (63%N, 148)];
   mkst [(34, 1, 0xc090210030db7128%N); (35, 1, 0xc090210030db7128%N); (38, 3, 0x90210030db7128%N)]
     [(62%N, 147); (63%N, 148)];
   mkst [(34, 1, 0xc090210030db7128%N); (35, 1, 0xc090210030db7128%N); (40, 3, 0x90210030db7128%N)]
     [(62%N, 147); (63%N, 148)];
   mkst [(34, 1, 0xc090210030db7128%N); (35, 1, 0xc090210030db7128%N); (39, 3, 0x90210030db7128%N)]
     [(62%N, 147); (63%N, 148)];
   mkst [(31, 1, 0xc090210030db73a8%N); (32, 1, 0xc090210030db73a8%N); (34, 3, 0xc090210030db7128%N)]
     [(7%N, 111); (9%N, 112)];
   mkst [(31, 1, 0xc090210030db73a8%N); (32, 1, 0xc090210030db73a8%N); (35, 3, 0xc090210030db7128%N)]
     [(7%N, 111); (9%N, 112)];
   mkst [(84, 0, 0xf930824449188003050%N); (85, 0, 0xf930824449188003050%N); (86, 0, 0xf930824449188003050%N); (87, 0, 0xf930824449188003050%N); (88, 0, 0xf930824449188003050%N); (89, 0, 0xf930824449188003050%N); (90, 0, 0xf930824449188003050%N); (91, 0, 0xf930824449188003050%N); (92, 0, 0xf930824449188003050%N); (93, 0, 0xf930824449188003050%N); (94, 0, 0xf930824449188003050%N); (95, 0, 0xf930824449188003050%N); (96, 0, 0xf930824449188003050%N); (97, 0, 0xf930824449188003050%N); (98, 0, 0xf930824449188003050%N); (99, 0, 0xf930824449188003050%N); (100, 0, 0x400000200000%N); (101, 0, 0x400000200000%N); (104, 1, 0xf930824049188800000%N); (105, 1, 0xf930824049188800000%N); (107, 1, 0xf930824449188003050%N); (108, 0, 0xf930824449188003050%N); (109, 0, 0xf930824449188003050%N); (110, 0, 0x2100%N); (111, 0, 0x2100%N); (112, 0, 0x2100%N); (113, 0, 0x2100%N); (114, 0, 0x2100%N); (115, 0, 0xf930824449188003050%N); (116, 0, 0xf930824449188003050%N); (117, 0, 0xf930824449188003050%N); (118, 0, 0xf930824449188003050%N); (119, 0, 0xf930824449188003050%N); (124, 0, 0xf930824449188003050%N); (125, 0, 0xf930824449188003050%N); (126, 0, 0xf930824449188003050%N); (128, 0, 0x3100%N); (129, 0, 0x3100%N); (130, 0, 0x43110%N); (131, 0, 0x43110%N); (132, 0, 0x43110%N); (133, 0, 0x43110%N); (134, 0, 0x43110%N); (135, 0, 0x43110%N); (136, 0, 0x43110%N); (137, 0, 0x43110%N); (138, 0, 0x43110%N); (139, 0, 0x43110%N); (140, 0, 0x43110%N); (141, 0, 0x43110%N); (142, 0, 0x43110%N); (143, 0, 0x400000000010%N); (144, 0, 0x400000000010%N); (145, 0, 0x400000000010%N); (146, 0, 0x400000000010%N)]
     [(4%N, 115); (6%N, 116); (12%N, 274); (13%N, 275); (27%N, 9); (31%N, 11); (32%N, 12); (36%N, 15); (39%N, 16); (42%N, 18); (46%N, 118); (50%N, 25); (53%N, 27); (59%N, 30); (64%N, 32); (65%N, 33); (68%N, 36); (71%N, 38); (72%N, 39); (73%N, 40); (74%N, 41); (75%N, 42); (1025%N, 89); (1026%N, 77); (1027%N, 76); (1031%N, 164); (1032%N, 278); (1033%N, 277); (1034%N, 55); (1037%N, 88); (1039%N, 276); (1040%N, 121); (1041%N, 124)];
   mkst [(102, 1, 0xf930824049188800000%N)]
     [];
   mkst [(84, 0, 0xf930824449188003050%N); (85, 0, 0xf930824449188003050%N); (86, 0, 0xf930824449188003050%N); (87, 0, 0xf930824449188003050%N); (88, 0, 0xf930824449188003050%N); (89, 0, 0xf930824449188003050%N); (90, 0, 0xf930824449188003050%N); (91, 0, 0xf930824449188003050%N); (92, 0, 0xf930824449188003050%N); (93, 0, 0xf930824449188003050%N); (94, 0, 0xf930824449188003050%N); (95, 0, 0xf930824449188003050%N); (96, 0, 0xf930824449188003050%N); (97, 0, 0xf930824449188003050%N); (98, 0, 0xf930824449188003050%N); (98, 3, 0xfdb0a2646918c043170%N); (99, 0, 0xf930824449188003050%N); (100, 0, 0x400000200000%N); (101, 0, 0x400000200000%N); (103, 1, 0xf930824049188800000%N); (104, 0, 0xf930824049188800000%N); (105, 0, 0xf930824049188800000%N); (106, 0, 0xf930824449188003050%N); (107, 0, 0xf930824449188003050%N); (108, 0, 0xf930824449188003050%N); (109, 0, 0xf930824449188003050%N); (115, 0, 0xf930824449188003050%N); (116, 0, 0xf930824449188003050%N); (117, 0, 0xf930824449188003050%N); (118, 0, 0xf930824449188003050%N); (119, 0, 0xf930824449188003050%N); (124, 0, 0xf930824449188003050%N); (125, 0, 0xf930824449188003050%N); (126, 0, 0xf930824449188003050%N)]
     [(23%N, 279); (27%N, 9); (31%N, 11); (32%N, 12); (36%N, 15); (39%N, 16); (42%N, 18); (50%N, 25); (53%N, 27); (59%N, 30); (64%N, 32); (65%N, 33); (68%N, 36); (71%N, 38); (72%N, 39); (73%N, 40); (74%N, 41); (75%N, 42); (1025%N, 89); (1026%N, 77); (1027%N, 76); (1029%N, 280); (1030%N, 219); (1031%N, 85); (1034%N, 55); (1037%N, 88)];
   mkst [(84, 0, 0xf930824449188003050%N); (85, 0, 0xf930824449188003050%N); (86, 0, 0xf930824449188003050%N); (87, 0, 0xf930824449188003050%N); (88, 0, 0xf930824449188003050%N); (89, 0, 0xf930824449188003050%N); (90, 0, 0xf930824449188003050%N); (91, 0, 0xf930824449188003050%N); (92, 0, 0xf930824449188003050%N); (93, 0, 0xf930824449188003050%N); (94, 0, 0xf930824449188003050%N); (95, 0, 0xf930824449188003050%N); (96, 0, 0xf930824449188003050%N); (97, 0, 0xf930824449188003050%N); (97, 3, 0xfdb0a2646918c043170%N); (98, 0, 0xf930824449188003050%N); (99, 0, 0xf930824449188003050%N); (100, 0, 0x400000200000%N); (101, 0, 0x400000200000%N); (102, 0, 0xf930824049188800000%N); (103, 0, 0xf930824049188800000%N); (104, 0, 0xf930824049188800000%N); (105, 0, 0xf930824049188800000%N); (106, 0, 0xf930824449188003050%N); (107, 0, 0xf930824449188003050%N); (108, 0, 0xf930824449188003050%N); (109, 0, 0xf930824449188003050%N); (115, 0, 0xf930824449188003050%N); (116, 0, 0xf930824449188003050%N); (117, 0, 0xf930824449188003050%N); (118, 0, 0xf930824449188003050%N); (119, 0, 0xf930824449188003050%N); (124, 0, 0xf930824449188003050%N); (125, 0, 0xf930824449188003050%N); (126, 0, 0xf930824449188003050%N)]
     [(27%N, 9); (31%N, 11); (32%N, 12); (36%N, 15); (39%N, 16); (42%N, 18); (50%N, 25); (53%N, 27); (59%N, 30); (64%N, 32); (65%N, 33); (68%N, 36); (71%N, 38); (72%N, 39); (73%N, 40); (74%N, 41); (75%N, 42); (1025%N, 89); (1026%N, 77); (1027%N, 76); (1028%N, 281); (1029%N, 220); (1030%N, 219); (1031%N, 85); (1034%N, 55); (1037%N, 88)];
   mkst [(58, 3, 0x883120%N)]
     [];
   mkst [(59, 3, 0x883120%N)]
     [];
   mkst [(61, 3, 0x883120%N)]
     [];
   mkst [(62, 3, 0x883120%N)]
     [];
   mkst [(63, 3, 0x883120%N)]
     [];
   mkst [(60, 3, 0x883120%N)]
     [];
   mkst [(64, 3, 0x883120%N)]
     [];
   mkst [(170, 2, 0x40130%N)]
     [];
   mkst [(163, 2, 0x40130%N)]
     [(5%N, 282)];
   mkst [(70, 1, 0xfdb0a2646918c040170%N); (71, 0, 0xfdb0a2646918c040170%N); (72, 0, 0xfdb0a2646918c040170%N); (73, 0, 0xfdb0a2646918c040170%N); (74, 0, 0xfdb0a2646918c040170%N); (79, 0, 0xfdb0a2646918c040170%N); (80, 0, 0xfdb0a2646918c040170%N); (81, 0, 0xfdb0a2646918c040170%N); (82, 0, 0xfdb0a2646918c040170%N); (83, 0, 0xfdb0a2646918c040170%N); (84, 0, 0xfdb0a2646918c040170%N); (85, 0, 0xfdb0a2646918c040170%N); (86, 0, 0xfdb0a2646918c040170%N); (87, 0, 0xfdb0a2646918c040170%N); (88, 0, 0xfdb0a2646918c040170%N); (89, 0, 0xfdb0a2646918c040170%N); (90, 0, 0xfdb0a2646918c040170%N); (91, 0, 0xfdb0a2646918c040170%N); (92, 0, 0xfdb0a2646918c040170%N); (93, 0, 0xfdb0a2646918c040170%N); (94, 0, 0xfdb0a2646918c040170%N); (95, 0, 0xfdb0a2646918c040170%N); (96, 0, 0xfdb0a2646918c040170%N); (97, 0, 0xfdb0a2646918c040170%N); (98, 0, 0xfdb0a2646918c040170%N); (99, 0, 0xfdb0a2646918c040170%N); (100, 0, 0x400000200000%N); (101, 0, 0x400000200000%N); (115, 0, 0xfdb0a2646918c040170%N); (116, 0, 0xfdb0a2646918c040170%N); (117, 0, 0xfdb0a2646918c040170%N); (118, 0, 0xfdb0a2646918c040170%N); (119, 0, 0xfdb0a2646918c040170%N); (124, 0, 0xfdb0a2646918c040170%N); (125, 0, 0xfdb0a2646918c040170%N); (126, 0, 0xfdb0a2646918c040170%N); (127, 0, 0xfdb0a2646918c040170%N); (128, 0, 0x120%N); (129, 0, 0x120%N); (130, 0, 0x40130%N); (131, 0, 0x40130%N); (132, 0, 0x40130%N); (133, 0, 0x40130%N); (134, 0, 0x40130%N); (135, 0, 0x40130%N); (136, 0, 0x40130%N); (137, 0, 0x40130%N); (138, 0, 0x40130%N); (139, 0, 0x40130%N); (140, 0, 0x40130%N); (141, 0, 0x40130%N); (142, 0, 0x40130%N); (143, 0, 0x400000040130%N); (144, 0, 0x400000040130%N); (145, 0, 0x400000040130%N); (146, 0, 0x400000040130%N); (153, 1, 0x120%N); (154, 1, 0x120%N); (155, 1, 0x120%N); (160, 0, 0x120%N); (161, 0, 0x120%N); (162, 0, 0x120%N); (163, 0, 0x40130%N); (164, 0, 0x40130%N); (165, 0, 0x40130%N); (166, 0, 0x40130%N); (167, 0, 0x40130%N); (168, 0, 0x40130%N); (169, 0, 0x40130%N); (170, 0, 0x40130%N); (171, 0, 0x40130%N); (172, 0, 0x40130%N); (173, 0, 0x40130%N)]
     [(4%N, 283); (6%N, 116); (18%N, 160); (26%N, 8); (27%N, 9); (31%N, 11); (32%N, 12); (36%N, 15); (39%N, 16); (41%N, 17); (42%N, 18); (46%N, 118); (49%N, 24); (50%N, 25); (53%N, 27); (57%N, 28); (59%N, 30); (64%N, 32); (65%N, 33); (67%N, 35); (68%N, 36); (70%N, 37); (71%N, 38); (72%N, 39); (73%N, 40); (74%N, 41); (75%N, 42); (1021%N, 119); (1024%N, 75); (1025%N, 79); (1026%N, 77); (1027%N, 76); (1034%N, 55); (1037%N, 78); (1038%N, 62); (1039%N, 285); (1040%N, 121); (1041%N, 286); (1048%N, 284); (1049%N, 162)];
   mkst [(151, 1, 0x120%N)]
     [];
   mkst [(149, 1, 0x20%N); (150, 1, 0x20%N); (152, 1, 0x120%N)]
     [(8%N, 287)];
   mkst [(171, 2, 0x40130%N)]
     [(5%N, 288)];
   mkst [(0, 0, 0x2020e1d1210c325fcedc%N); (1, 0, 0x2020e1d1210c325fcedc%N); (2, 0, 0x2020e1d1210c325fcedc%N); (3, 0, 0x2020e1d1210c325fcedc%N); (4, 0, 0x2020e1d1210c325fcedc%N); (5, 0, 0x2020e1d1210c325fcedc%N); (6, 0, 0x2020e1d1210c325fcedc%N); (7, 0, 0x2020e1d1210c325fcedc%N); (8, 0, 0x2020e1d1210c325fcedc%N); (9, 0, 0x2020e1d1210c325fcedc%N); (10, 0, 0x2020e1d1210c325fcedc%N); (11, 0, 0x2020e1d1210c325fcedc%N); (12, 0, 0x2020e1d1210c325fcedc%N); (15, 0, 0x2020e0d02108325bcacc%N); (16, 0, 0x2020e0d02108325bcacc%N); (17, 0, 0x2020e0d02108325bcacc%N); (18, 0, 0x2020e0d02108325bcacc%N); (19, 0, 0x2020e0d02108325bcacc%N); (20, 0, 0x2020e0d02108325bcacc%N); (20, 1, 0x2020e0d02108325bcacc%N); (21, 0, 0x2020e0d02108325bcacc%N); (22, 0, 0x2020e0d02108325bcacc%N); (23, 0, 0x2020e0d02108325bcacc%N); (168, 2, 0x40130%N)]
     [(1%N, 1); (3%N, 2); (4%N, 81); (6%N, 4); (19%N, 289); (24%N, 7); (33%N, 13); (34%N, 14); (43%N, 19); (46%N, 21); (48%N, 23); (51%N, 26); (66%N, 34); (1000%N, 70); (1001%N, 69); (1003%N, 90)];
   mkst [(164, 2, 0x40130%N)]
     [];
   mkst [(165, 2, 0x40130%N)]
     [(19%N, 290)];
   mkst [(69, 0, 0xfdb0a2646918c040170%N); (70, 0, 0xfdb0a2646918c040170%N); (71, 0, 0xfdb0a2646918c040170%N); (72, 0, 0xfdb0a2646918c040170%N); (73, 0, 0xfdb0a2646918c040170%N); (74, 0, 0xfdb0a2646918c040170%N); (79, 0, 0xfdb0a2646918c040170%N); (80, 0, 0xfdb0a2646918c040170%N); (81, 0, 0xfdb0a2646918c040170%N); (82, 0, 0xfdb0a2646918c040170%N); (83, 0, 0xfdb0a2646918c040170%N); (84, 0, 0xfdb0a2646918c040170%N); (85, 0, 0xfdb0a2646918c040170%N); (86, 0, 0xfdb0a2646918c040170%N); (87, 0, 0xfdb0a2646918c040170%N); (88, 0, 0xfdb0a2646918c040170%N); (89, 0, 0xfdb0a2646918c040170%N); (90, 0, 0xfdb0a2646918c040170%N); (91, 0, 0xfdb0a2646918c040170%N); (92, 0, 0xfdb0a2646918c040170%N); (93, 0, 0xfdb0a2646918c040170%N); (94, 0, 0xfdb0a2646918c040170%N); (95, 0, 0xfdb0a2646918c040170%N); (96, 0, 0xfdb0a2646918c040170%N); (97, 0, 0xfdb0a2646918c040170%N); (98, 0, 0xfdb0a2646918c040170%N); (99, 0, 0xfdb0a2646918c040170%N); (100, 0, 0x400000200000%N); (101, 0, 0x400000200000%N); (115, 0, 0xfdb0a2646918c040170%N); (116, 0, 0xfdb0a2646918c040170%N); (117, 0, 0xfdb0a2646918c040170%N); (118, 0, 0xfdb0a2646918c040170%N); (119, 0, 0xfdb0a2646918c040170%N); (124, 0, 0xfdb0a2646918c040170%N); (125, 0, 0xfdb0a2646918c040170%N); (126, 0, 0xfdb0a2646918c040170%N); (127, 0, 0xfdb0a2646918c040170%N); (149, 0, 0x20%N); (150, 0, 0x20%N); (151, 0, 0x120%N); (152, 0, 0x120%N); (153, 0, 0x120%N); (154, 0, 0x120%N); (155, 0, 0x120%N); (172, 2, 0x40130%N); (173, 2, 0x40130%N)]
     [(5%N, 291); (26%N, 8); (27%N, 9); (31%N, 11); (32%N, 12); (36%N, 15); (39%N, 16); (41%N, 17); (42%N, 18); (49%N, 24); (50%N, 25); (53%N, 27); (57%N, 28); (59%N, 30); (64%N, 32); (65%N, 33); (67%N, 35); (68%N, 36); (70%N, 37); (71%N, 38); (72%N, 39); (73%N, 40); (74%N, 41); (75%N, 42); (1020%N, 232); (1021%N, 53); (1024%N, 75); (1025%N, 79); (1026%N, 77); (1027%N, 76); (1034%N, 55); (1037%N, 78); (1038%N, 62); (1043%N, 292); (1044%N, 234); (1045%N, 233)];
   mkst [(0, 0, 0x2020e1d1210c325fcedc%N); (1, 0, 0x2020e1d1210c325fcedc%N); (2, 0, 0x2020e1d1210c325fcedc%N); (3, 0, 0x2020e1d1210c325fcedc%N); (4, 0, 0x2020e1d1210c325fcedc%N); (5, 0, 0x2020e1d1210c325fcedc%N); (6, 0, 0x2020e1d1210c325fcedc%N); (7, 0, 0x2020e1d1210c325fcedc%N); (8, 0, 0x2020e1d1210c325fcedc%N); (9, 0, 0x2020e1d1210c325fcedc%N); (10, 0, 0x2020e1d1210c325fcedc%N); (11, 0, 0x2020e1d1210c325fcedc%N); (12, 0, 0x2020e1d1210c325fcedc%N); (15, 0, 0x2020e0d02108325bcacc%N); (16, 0, 0x2020e0d02108325bcacc%N); (17, 0, 0x2020e0d02108325bcacc%N); (18, 0, 0x2020e0d02108325bcacc%N); (19, 0, 0x2020e0d02108325bcacc%N); (20, 0, 0x2020e0d02108325bcacc%N); (21, 0, 0x2020e0d02108325bcacc%N); (22, 0, 0x2020e0d02108325bcacc%N); (23, 0, 0x2020e0d02108325bcacc%N); (24, 0, 0xc0902100305b4acc%N); (25, 0, 0xc0902100305b4acc%N); (26, 0, 0xc0902100305b4acc%N); (27, 0, 0xc0902100305b4acc%N); (28, 0, 0xc0902100305b4acc%N); (29, 0, 0xc0902100305b4acc%N); (30, 0, 0xc0902100305b4288%N); (31, 0, 0xc0902100305b4288%N); (32, 0, 0xc0902100305b4288%N); (33, 0, 0xc0902100305b4008%N); (34, 0, 0xc0902100305b4008%N); (35, 0, 0xc0902100305b4008%N); (36, 0, 0x902100305b4008%N); (37, 0, 0x902100305b4008%N); (38, 0, 0x902100305b4008%N); (39, 0, 0x902100305b4008%N); (40, 0, 0x902100305b4008%N); (41, 0, 0x800100305a0008%N); (42, 0, 0x800100305a0008%N); (43, 0, 0x800100305a0008%N); (44, 0, 0x305a0008%N); (45, 0, 0x305a0008%N); (46, 0, 0x305a0000%N); (47, 0, 0x305a0000%N); (48, 0, 0x304a0000%N); (49, 0, 0x304a0000%N); (50, 0, 0x300a0000%N); (51, 0, 0x300a0000%N); (52, 0, 0x200a0000%N); (53, 0, 0x200a0000%N); (54, 0, 0x80000%N); (55, 0, 0x80000%N); (57, 0, 0x80000%N); (58, 0, 0x80000%N); (59, 0, 0x80000%N); (60, 0, 0x80000%N); (61, 0, 0x80000%N); (62, 0, 0x80000%N); (63, 0, 0x80000%N); (64, 0, 0x80000%N); (166, 2, 0x40130%N); (167, 2, 0x40130%N); (169, 2, 0x40130%N)]
     [(1%N, 1); (3%N, 2); (4%N, 3); (6%N, 293); (19%N, 294); (24%N, 7); (33%N, 13); (34%N, 14); (43%N, 19); (46%N, 21); (48%N, 23); (51%N, 26); (66%N, 34); (1000%N, 70); (1001%N, 69); (1003%N, 80); (1004%N, 47); (1005%N, 68); (1006%N, 44); (1007%N, 73); (1008%N, 71); (1009%N, 56); (1010%N, 45); (1011%N, 57); (1012%N, 63); (1013%N, 66); (1014%N, 67); (1015%N, 49); (1017%N, 295)];
   mkst [(162, 2, 0x120%N); (166, 1, 0x40130%N); (167, 1, 0x40130%N); (169, 1, 0x40130%N); (172, 1, 0x40130%N); (173, 1, 0x40130%N)]
     [(4%N, 239); (18%N, 240)];
   mkst [(25, 4, 0xc090210030db7bec%N)]
     [];
   mkst [(0, 0, 0xc191210430d74fdc%N); (1, 0, 0xc191210430d74fdc%N); (2, 0, 0xc191210430d74fdc%N); (3, 0, 0xc191210430d74fdc%N); (4, 0, 0xc191210430d74fdc%N); (5, 0, 0xc191210430d74fdc%N); (6, 0, 0xc191210430d74fdc%N); (7, 0, 0xc191210430d74fdc%N); (8, 0, 0xc191210430d74fdc%N); (9, 0, 0xc191210430d74fdc%N); (10, 0, 0xc191210430d74fdc%N); (11, 0, 0xc191210430d74fdc%N); (12, 0, 0xc191210430d74fdc%N); (15, 0, 0xc090210030d34bcc%N); (16, 0, 0xc090210030d34bcc%N); (17, 0, 0xc090210030d34bcc%N); (18, 0, 0xc090210030d34bcc%N); (19, 0, 0xc090210030d34bcc%N); (20, 0, 0xc090210030d34bcc%N); (21, 0, 0xc090210030d34bcc%N); (22, 0, 0xc090210030d34bcc%N); (23, 0, 0xc090210030d34bcc%N); (24, 0, 0xc090210030d34bcc%N); (25, 0, 0xc090210030d34bcc%N); (26, 0, 0xc090210030d34bcc%N); (27, 0, 0xc090210030d34bcc%N); (28, 0, 0xc090210030d34bcc%N); (29, 0, 0xc090210030d34bcc%N); (30, 0, 0xc090210030d34388%N); (31, 0, 0xc090210030d34388%N); (32, 0, 0xc090210030d34388%N); (33, 0, 0xc090210030d34108%N); (34, 0, 0xc090210030d34108%N); (35, 0, 0xc090210030d34108%N); (36, 0, 0x90210030d34108%N); (37, 0, 0x90210030d34108%N); (38, 0, 0x90210030d34108%N); (39, 0, 0x90210030d34108%N); (40, 0, 0x90210030d34108%N); (41, 0, 0x80010030d20108%N); (42, 0, 0x80010030d20108%N); (43, 0, 0x80010030d20108%N); (44, 0, 0x30d20108%N); (45, 0, 0x30d20108%N); (46, 0, 0x30d20100%N); (47, 0, 0x30d20100%N); (48, 0, 0x30c20100%N); (49, 0, 0x30c20100%N); (50, 0, 0x30820100%N); (51, 0, 0x30820100%N); (52, 0, 0x20820100%N); (53, 0, 0x20820100%N); (54, 0, 0x800100%N); (55, 0, 0x800100%N); (56, 0, 0x800100%N); (123, 2, 0x800100%N)]
     [(1%N, 1); (3%N, 2); (4%N, 3); (6%N, 4); (24%N, 7); (33%N, 13); (34%N, 14); (43%N, 19); (46%N, 21); (48%N, 23); (51%N, 26); (66%N, 34); (1000%N, 70); (1001%N, 69); (1003%N, 180); (1004%N, 47); (1005%N, 68); (1006%N, 44); (1007%N, 73); (1008%N, 71); (1009%N, 56); (1010%N, 45); (1011%N, 57); (1012%N, 63); (1013%N, 66); (1014%N, 67); (1015%N, 296); (1016%N, 297)];
   mkst [(117, 4, 0xfdb0a2646918c043170%N); (121, 2, 0x800100%N); (122, 0, 0x800100%N); (123, 0, 0x800100%N)]
     [(23%N, 298); (46%N, 169); (1036%N, 299)];
   mkst [(115, 4, 0xfdb0a2646918c043170%N)]
     [];
   mkst [(116, 4, 0xfdb0a2646918c043170%N); (118, 4, 0xfdb0a2646918c043170%N); (121, 1, 0x800100%N)]
     [(8%N, 300); (23%N, 301)];
   mkst [(0, 0, 0x2020e1d1210c3257cffc%N); (1, 0, 0x2020e1d1210c3257cffc%N); (2, 0, 0x2020e1d1210c3257cffc%N); (3, 0, 0x2020e1d1210c3257cffc%N); (4, 0, 0x2020e1d1210c3257cffc%N); (5, 0, 0x2020e1d1210c3257cffc%N); (6, 0, 0x2020e1d1210c3257cffc%N); (7, 0, 0x2020e1d1210c3257cffc%N); (8, 0, 0x2020e1d1210c3257cffc%N); (9, 0, 0x2020e1d1210c3257cffc%N); (10, 0, 0x2020e1d1210c3257cffc%N); (11, 0, 0x2020e1d1210c3257cffc%N); (12, 0, 0x2020e1d1210c3257cffc%N); (15, 0, 0x2020e0d021083253cbec%N); (16, 0, 0x2020e0d021083253cbec%N); (17, 0, 0x2020e0d021083253cbec%N); (18, 0, 0x2020e0d021083253cbec%N); (19, 0, 0x2020e0d021083253cbec%N); (20, 0, 0x2020e0d021083253cbec%N); (21, 0, 0x2020e0d021083253cbec%N); (22, 0, 0x2020e0d021083253cbec%N); (23, 0, 0x2020e0d021083253cbec%N); (24, 0, 0xc090210030534bec%N); (25, 0, 0xc090210030534bec%N); (26, 0, 0xc090210030534bec%N); (27, 0, 0xc090210030534bec%N); (28, 0, 0xc090210030534bec%N); (29, 0, 0xc090210030534bec%N); (30, 0, 0xc0902100305343a8%N); (31, 0, 0xc0902100305343a8%N); (32, 0, 0xc0902100305343a8%N); (33, 0, 0xc090210030534128%N); (34, 0, 0xc090210030534128%N); (35, 0, 0xc090210030534128%N); (36, 0, 0x90210030534128%N); (37, 0, 0x90210030534128%N); (38, 0, 0x90210030534128%N); (39, 0, 0x90210030534128%N); (40, 0, 0x90210030534128%N); (41, 0, 0x80010030520128%N); (42, 0, 0x80010030520128%N); (43, 0, 0x80010030520128%N); (44, 0, 0x30520128%N); (45, 0, 0x30520128%N); (46, 0, 0x30520120%N); (47, 0, 0x30520120%N); (48, 0, 0x30420120%N); (49, 0, 0x30420120%N); (50, 0, 0x30020120%N); (51, 0, 0x30020120%N); (52, 0, 0x20020120%N); (53, 0, 0x20020120%N); (54, 0, 0x120%N); (55, 0, 0x120%N); (57, 0, 0x120%N); (58, 0, 0x120%N); (59, 0, 0x120%N); (60, 0, 0x120%N); (61, 0, 0x120%N); (62, 0, 0x120%N); (63, 0, 0x120%N); (64, 0, 0x120%N); (65, 0, 0x120%N); (66, 0, 0x120%N); (205, 4, 0x1fdf1e2fded7cda0205b%N); (206, 4, 0x1fdf1e2fded7cda0205b%N)]
     [(1%N, 1); (3%N, 2); (4%N, 3); (5%N, 302); (6%N, 4); (24%N, 7); (33%N, 13); (34%N, 14); (43%N, 19); (46%N, 21); (48%N, 23); (51%N, 26); (66%N, 34); (1000%N, 70); (1001%N, 69); (1003%N, 80); (1004%N, 47); (1005%N, 68); (1006%N, 44); (1007%N, 73); (1008%N, 71); (1009%N, 56); (1010%N, 45); (1011%N, 57); (1012%N, 63); (1013%N, 66); (1014%N, 67); (1015%N, 49); (1017%N, 46); (1018%N, 303)];
   mkst [(0, 0, 0x2020e1d1210c3257cffc%N); (1, 0, 0x2020e1d1210c3257cffc%N); (2, 0, 0x2020e1d1210c3257cffc%N); (3, 0, 0x2020e1d1210c3257cffc%N); (4, 0, 0x2020e1d1210c3257cffc%N); (5, 0, 0x2020e1d1210c3257cffc%N); (6, 0, 0x2020e1d1210c3257cffc%N); (7, 0, 0x2020e1d1210c3257cffc%N); (8, 0, 0x2020e1d1210c3257cffc%N); (9, 0, 0x2020e1d1210c3257cffc%N); (10, 0, 0x2020e1d1210c3257cffc%N); (11, 0, 0x2020e1d1210c3257cffc%N); (12, 0, 0x2020e1d1210c3257cffc%N); (15, 0, 0x2020e0d021083253cbec%N); (16, 0, 0x2020e0d021083253cbec%N); (17, 0, 0x2020e0d021083253cbec%N); (18, 0, 0x2020e0d021083253cbec%N); (19, 0, 0x2020e0d021083253cbec%N); (20, 0, 0x2020e0d021083253cbec%N); (21, 0, 0x2020e0d021083253cbec%N); (22, 0, 0x2020e0d021083253cbec%N); (23, 0, 0x2020e0d021083253cbec%N); (24, 0, 0xc090210030534bec%N); (25, 0, 0xc090210030534bec%N); (26, 0, 0xc090210030534bec%N); (27, 0, 0xc090210030534bec%N); (28, 0, 0xc090210030534bec%N); (29, 0, 0xc090210030534bec%N); (30, 0, 0xc0902100305343a8%N); (31, 0, 0xc0902100305343a8%N); (32, 0, 0xc0902100305343a8%N); (33, 0, 0xc090210030534128%N); (34, 0, 0xc090210030534128%N); (35, 0, 0xc090210030534128%N); (36, 0, 0x90210030534128%N); (37, 0, 0x90210030534128%N); (38, 0, 0x90210030534128%N); (39, 0, 0x90210030534128%N); (40, 0, 0x90210030534128%N); (41, 0, 0x80010030520128%N); (42, 0, 0x80010030520128%N); (43, 0, 0x80010030520128%N); (44, 0, 0x30520128%N); (45, 0, 0x30520128%N); (46, 0, 0x30520120%N); (47, 0, 0x30520120%N); (48, 0, 0x30420120%N); (49, 0, 0x30420120%N); (50, 0, 0x30020120%N); (51, 0, 0x30020120%N); (52, 0, 0x20020120%N); (53, 0, 0x20020120%N); (54, 0, 0x120%N); (55, 0, 0x120%N); (57, 0, 0x120%N); (58, 0, 0x120%N); (59, 0, 0x120%N); (60, 0, 0x120%N); (61, 0, 0x120%N); (62, 0, 0x120%N); (63, 0, 0x120%N); (64, 0, 0x120%N); (65, 0, 0x120%N); (66, 0, 0x120%N); (203, 4, 0x1fdf1e2fded7cda0205b%N); (204, 4, 0x1fdf1e2fded7cda0205b%N)]
     [(1%N, 1); (3%N, 2); (4%N, 3); (5%N, 304); (6%N, 4); (24%N, 7); (33%N, 13); (34%N, 14); (43%N, 19); (46%N, 21); (48%N, 23); (51%N, 26); (66%N, 34); (1000%N, 70); (1001%N, 69); (1003%N, 80); (1004%N, 47); (1005%N, 68); (1006%N, 44); (1007%N, 73); (1008%N, 71); (1009%N, 56); (1010%N, 45); (1011%N, 57); (1012%N, 63); (1013%N, 66); (1014%N, 67); (1015%N, 49); (1017%N, 46); (1018%N, 305)];
   mkst [(0, 0, 0x2020e1d1210c3257efdc%N); (1, 0, 0x2020e1d1210c3257efdc%N); (2, 0, 0x2020e1d1210c3257efdc%N); (3, 0, 0x2020e1d1210c3257efdc%N); (4, 0, 0x2020e1d1210c3257efdc%N); (5, 0, 0x2020e1d1210c3257efdc%N); (6, 0, 0x2020e1d1210c3257efdc%N); (7, 0, 0x2020e1d1210c3257efdc%N); (8, 0, 0x2020e1d1210c3257efdc%N); (9, 0, 0x2020e1d1210c3257efdc%N); (10, 0, 0x2020e1d1210c3257efdc%N); (11, 0, 0x2020e1d1210c3257efdc%N); (12, 0, 0x2020e1d1210c3257efdc%N); (15, 0, 0x2020e0d021083253ebcc%N); (16, 0, 0x2020e0d021083253ebcc%N); (17, 0, 0x2020e0d021083253ebcc%N); (18, 0, 0x2020e0d021083253ebcc%N); (19, 0, 0x2020e0d021083253ebcc%N); (20, 0, 0x2020e0d021083253ebcc%N); (21, 0, 0x2020e0d021083253ebcc%N); (22, 0, 0x2020e0d021083253ebcc%N); (23, 0, 0x2020e0d021083253ebcc%N); (24, 0, 0xc090210030536bcc%N); (25, 0, 0xc090210030536bcc%N); (26, 0, 0xc090210030536bcc%N); (27, 0, 0xc090210030536bcc%N); (28, 0, 0xc090210030536bcc%N); (29, 0, 0xc090210030536bcc%N); (30, 0, 0xc090210030536388%N); (31, 0, 0xc090210030536388%N); (32, 0, 0xc090210030536388%N); (33, 0, 0xc090210030536108%N); (34, 0, 0xc090210030536108%N); (35, 0, 0xc090210030536108%N); (36, 0, 0x90210030536108%N); (37, 0, 0x90210030536108%N); (38, 0, 0x90210030536108%N); (39, 0, 0x90210030536108%N); (40, 0, 0x90210030536108%N); (41, 0, 0x80010030522108%N); (42, 0, 0x80010030522108%N); (43, 0, 0x80010030522108%N); (44, 0, 0x30522108%N); (45, 0, 0x30522108%N); (46, 0, 0x30522100%N); (47, 0, 0x30522100%N); (48, 0, 0x30422100%N); (49, 0, 0x30422100%N); (50, 0, 0x30022100%N); (51, 0, 0x30022100%N); (52, 0, 0x20022100%N); (53, 0, 0x20022100%N); (54, 0, 0x2100%N); (55, 0, 0x2100%N); (57, 0, 0x2100%N); (58, 0, 0x2100%N); (59, 0, 0x2100%N); (60, 0, 0x2100%N); (61, 0, 0x2100%N); (62, 0, 0x2100%N); (63, 0, 0x2100%N); (64, 0, 0x2100%N); (65, 0, 0x2100%N); (66, 0, 0x2100%N); (186, 0, 0x1fdf1e2fded7cda0205b%N); (187, 0, 0x1fdf1e2fded7cda0205b%N); (188, 0, 0x1fdf1e2fded7cda0205b%N); (189, 0, 0x1fdf1e2fded7cda0205b%N); (190, 0, 0x1fdf1e2fded7cda0205b%N); (191, 0, 0x1fdf1e2fded7cda0205b%N); (192, 0, 0x1fdf1e2fded7cda0205b%N); (193, 0, 0x1fdf1e2fded7cda0205b%N); (194, 0, 0x1fdf1e2fded7cda0205b%N); (195, 0, 0x1fdf1e2fded7cda0205b%N); (200, 0, 0x1fdf1e2fded7cda0205b%N); (200, 4, 0x1fdf1e2fded7cda0205b%N); (201, 0, 0x1fdf1e2fded7cda0205b%N); (201, 4, 0x1fdf1e2fded7cda0205b%N); (202, 0, 0x1fdf1e2fded7cda0205b%N); (203, 0, 0x1fdf1e2fded7cda0205b%N); (204, 0, 0x1fdf1e2fded7cda0205b%N); (205, 0, 0x1fdf1e2fded7cda0205b%N); (206, 0, 0x1fdf1e2fded7cda0205b%N); (207, 0, 0x1fdf1e2fded7cda0205b%N); (208, 0, 0x1fdf1e2fded7cda0205b%N); (209, 0, 0x1fdf1e2fded7cda0205b%N)]
     [(1%N, 1); (3%N, 2); (4%N, 3); (6%N, 4); (13%N, 5); (21%N, 6); (24%N, 7); (30%N, 10); (33%N, 13); (34%N, 14); (43%N, 19); (44%N, 20); (46%N, 21); (47%N, 22); (48%N, 23); (51%N, 26); (58%N, 29); (60%N, 31); (66%N, 34); (76%N, 43); (1000%N, 70); (1001%N, 69); (1003%N, 80); (1004%N, 47); (1005%N, 68); (1006%N, 44); (1007%N, 73); (1008%N, 71); (1009%N, 56); (1010%N, 45); (1011%N, 57); (1012%N, 63); (1013%N, 66); (1014%N, 67); (1015%N, 49); (1017%N, 46); (1018%N, 58); (1055%N, 59); (1058%N, 306); (1059%N, 48); (1062%N, 72); (1063%N, 64); (1064%N, 65)];
   mkst [(23, 4, 0x2020e0d0210832dbfbec%N)]
     [];
   mkst [(0, 0, 0x2020e1d1210c3257efdc%N); (1, 0, 0x2020e1d1210c3257efdc%N); (2, 0, 0x2020e1d1210c3257efdc%N); (3, 0, 0x2020e1d1210c3257efdc%N); (4, 0, 0x2020e1d1210c3257efdc%N); (5, 0, 0x2020e1d1210c3257efdc%N); (6, 0, 0x2020e1d1210c3257efdc%N); (7, 0, 0x2020e1d1210c3257efdc%N); (8, 0, 0x2020e1d1210c3257efdc%N); (9, 0, 0x2020e1d1210c3257efdc%N); (10, 0, 0x2020e1d1210c3257efdc%N); (11, 0, 0x2020e1d1210c3257efdc%N); (12, 0, 0x2020e1d1210c3257efdc%N); (15, 0, 0x2020e0d021083253ebcc%N); (16, 0, 0x2020e0d021083253ebcc%N); (17, 0, 0x2020e0d021083253ebcc%N); (18, 0, 0x2020e0d021083253ebcc%N); (19, 0, 0x2020e0d021083253ebcc%N); (20, 0, 0x2020e0d021083253ebcc%N); (21, 0, 0x2020e0d021083253ebcc%N); (22, 0, 0x2020e0d021083253ebcc%N); (23, 0, 0x2020e0d021083253ebcc%N); (24, 0, 0xc090210030536bcc%N); (25, 0, 0xc090210030536bcc%N); (26, 0, 0xc090210030536bcc%N); (27, 0, 0xc090210030536bcc%N); (28, 0, 0xc090210030536bcc%N); (29, 0, 0xc090210030536bcc%N); (30, 0, 0xc090210030536388%N); (31, 0, 0xc090210030536388%N); (32, 0, 0xc090210030536388%N); (33, 0, 0xc090210030536108%N); (34, 0, 0xc090210030536108%N); (35, 0, 0xc090210030536108%N); (36, 0, 0x90210030536108%N); (37, 0, 0x90210030536108%N); (38, 0, 0x90210030536108%N); (39, 0, 0x90210030536108%N); (40, 0, 0x90210030536108%N); (41, 0, 0x80010030522108%N); (42, 0, 0x80010030522108%N); (43, 0, 0x80010030522108%N); (44, 0, 0x30522108%N); (45, 0, 0x30522108%N); (46, 0, 0x30522100%N); (47, 0, 0x30522100%N); (48, 0, 0x30422100%N); (49, 0, 0x30422100%N); (50, 0, 0x30022100%N); (51, 0, 0x30022100%N); (52, 0, 0x20022100%N); (53, 0, 0x20022100%N); (54, 0, 0x2100%N); (55, 0, 0x2100%N); (57, 0, 0x2100%N); (58, 0, 0x2100%N); (59, 0, 0x2100%N); (60, 0, 0x2100%N); (61, 0, 0x2100%N); (62, 0, 0x2100%N); (63, 0, 0x2100%N); (64, 0, 0x2100%N); (65, 0, 0x2100%N); (66, 0, 0x2100%N); (186, 0, 0x1fdf1e2fded7cda0205b%N); (187, 0, 0x1fdf1e2fded7cda0205b%N); (188, 0, 0x1fdf1e2fded7cda0205b%N); (189, 0, 0x1fdf1e2fded7cda0205b%N); (190, 0, 0x1fdf1e2fded7cda0205b%N); (191, 0, 0x1fdf1e2fded7cda0205b%N); (192, 0, 0x1fdf1e2fded7cda0205b%N); (193, 0, 0x1fdf1e2fded7cda0205b%N); (194, 0, 0x1fdf1e2fded7cda0205b%N); (195, 0, 0x1fdf1e2fded7cda0205b%N); (200, 0, 0x1fdf1e2fded7cda0205b%N); (201, 0, 0x1fdf1e2fded7cda0205b%N); (202, 0, 0x1fdf1e2fded7cda0205b%N); (202, 4, 0x1fdf1e2fded7cda0205b%N); (203, 0, 0x1fdf1e2fded7cda0205b%N); (204, 0, 0x1fdf1e2fded7cda0205b%N); (205, 0, 0x1fdf1e2fded7cda0205b%N); (206, 0, 0x1fdf1e2fded7cda0205b%N); (207, 0, 0x1fdf1e2fded7cda0205b%N); (208, 0, 0x1fdf1e2fded7cda0205b%N); (209, 0, 0x1fdf1e2fded7cda0205b%N)]
     [(1%N, 1); (3%N, 2); (4%N, 3); (6%N, 4); (13%N, 5); (21%N, 6); (24%N, 7); (30%N, 10); (33%N, 13); (34%N, 14); (43%N, 19); (44%N, 20); (46%N, 21); (47%N, 22); (48%N, 23); (51%N, 26); (58%N, 29); (60%N, 31); (66%N, 34); (76%N, 43); (1000%N, 70); (1001%N, 69); (1003%N, 80); (1004%N, 47); (1005%N, 68); (1006%N, 44); (1007%N, 73); (1008%N, 71); (1009%N, 56); (1010%N, 45); (1011%N, 57); (1012%N, 63); (1013%N, 66); (1014%N, 67); (1015%N, 49); (1017%N, 46); (1018%N, 58); (1055%N, 59); (1058%N, 307); (1059%N, 48); (1062%N, 72); (1063%N, 64); (1064%N, 65)];
   mkst [(131, 3, 0xfdb0a2606918c24b130%N)]
     [];
   mkst [(146, 3, 0x400000040130%N)]
     [];
   mkst [(148, 2, 0x80c08094807010c017a%N)]
     [];
   mkst [(0, 0, 0x2020e1d1210c32d7cfdc%N); (1, 0, 0x2020e1d1210c32d7cfdc%N); (2, 0, 0x2020e1d1210c32d7cfdc%N); (3, 0, 0x2020e1d1210c32d7cfdc%N); (4, 0, 0x2020e1d1210c32d7cfdc%N); (5, 0, 0x2020e1d1210c32d7cfdc%N); (6, 0, 0x2020e1d1210c32d7cfdc%N); (7, 0, 0x2020e1d1210c32d7cfdc%N); (8, 0, 0x2020e1d1210c32d7cfdc%N); (9, 0, 0x2020e1d1210c32d7cfdc%N); (10, 0, 0x2020e1d1210c32d7cfdc%N); (11, 0, 0x2020e1d1210c32d7cfdc%N); (12, 0, 0x2020e1d1210c32d7cfdc%N); (15, 0, 0x2020e0d0210832d3cbcc%N); (16, 0, 0x2020e0d0210832d3cbcc%N); (17, 0, 0x2020e0d0210832d3cbcc%N); (18, 0, 0x2020e0d0210832d3cbcc%N); (19, 0, 0x2020e0d0210832d3cbcc%N); (20, 0, 0x2020e0d0210832d3cbcc%N); (21, 0, 0x2020e0d0210832d3cbcc%N); (22, 0, 0x2020e0d0210832d3cbcc%N); (23, 0, 0x2020e0d0210832d3cbcc%N); (24, 0, 0xc090210030d34bcc%N); (25, 0, 0xc090210030d34bcc%N); (26, 0, 0xc090210030d34bcc%N); (27, 0, 0xc090210030d34bcc%N); (28, 0, 0xc090210030d34bcc%N); (29, 0, 0xc090210030d34bcc%N); (30, 0, 0xc090210030d34388%N); (31, 0, 0xc090210030d34388%N); (32, 0, 0xc090210030d34388%N); (33, 0, 0xc090210030d34108%N); (34, 0, 0xc090210030d34108%N); (35, 0, 0xc090210030d34108%N); (36, 0, 0x90210030d34108%N); (37, 0, 0x90210030d34108%N); (38, 0, 0x90210030d34108%N); (39, 0, 0x90210030d34108%N); (40, 0, 0x90210030d34108%N); (41, 0, 0x80010030d20108%N); (42, 0, 0x80010030d20108%N); (43, 0, 0x80010030d20108%N); (44, 0, 0x30d20108%N); (45, 0, 0x30d20108%N); (46, 0, 0x30d20100%N); (47, 0, 0x30d20100%N); (48, 0, 0x30c20100%N); (49, 0, 0x30c20100%N); (50, 0, 0x30820100%N); (51, 0, 0x30820100%N); (52, 0, 0x20820100%N); (53, 0, 0x20820100%N); (54, 0, 0x800100%N); (55, 0, 0x800100%N); (57, 0, 0x800100%N); (58, 0, 0x800100%N); (59, 0, 0x800100%N); (60, 0, 0x800100%N); (61, 0, 0x800100%N); (62, 0, 0x800100%N); (63, 0, 0x800100%N); (64, 0, 0x800100%N); (174, 0, 0x800100%N); (175, 0, 0x800100%N); (175, 1, 0x802100%N); (176, 0, 0x800100%N); (176, 1, 0x802100%N); (177, 0, 0x800100%N); (178, 0, 0x800100%N); (179, 0, 0x800100%N); (180, 0, 0x800100%N); (181, 0, 0x4000948060120005a%N); (182, 0, 0x48400%N); (183, 0, 0x48400%N); (184, 0, 0x48400%N); (185, 0, 0x48400%N)]
     [(1%N, 1); (3%N, 2); (4%N, 3); (6%N, 4); (10%N, 308); (18%N, 309); (21%N, 255); (24%N, 7); (33%N, 13); (34%N, 14); (43%N, 19); (46%N, 21); (48%N, 23); (51%N, 26); (66%N, 34); (1000%N, 70); (1001%N, 69); (1003%N, 80); (1004%N, 47); (1005%N, 68); (1006%N, 44); (1007%N, 73); (1008%N, 71); (1009%N, 56); (1010%N, 45); (1011%N, 57); (1012%N, 63); (1013%N, 66); (1014%N, 67); (1015%N, 49); (1017%N, 256); (1050%N, 313); (1051%N, 314); (1052%N, 310); (1053%N, 312); (1054%N, 311)];
   mkst [(174, 1, 0x802100%N)]
     [];
   mkst [(78, 3, 0x2100%N)]
     [];
   mkst [(212, 4, 0x1fdf1e2fde97cd20205b%N)]
     [];
   mkst [(215, 2, 0xfdb0a2606918c200000%N)]
     [];
   mkst [(142, 3, 0xfdb0a2606918c24b130%N)]
     [];
   mkst [(156, 1, 0x120%N)]
     [];
   mkst [(141, 3, 0xfdb0a2606918c24b130%N); (157, 1, 0x120%N)]
     [(5%N, 315); (8%N, 316)];
   mkst [(140, 3, 0xfdb0a2606918c24b130%N)]
     [(5%N, 317)];
   mkst [(0, 0, 0x2020e1d1210c325fcedc%N); (1, 0, 0x2020e1d1210c325fcedc%N); (2, 0, 0x2020e1d1210c325fcedc%N); (3, 0, 0x2020e1d1210c325fcedc%N); (4, 0, 0x2020e1d1210c325fcedc%N); (5, 0, 0x2020e1d1210c325fcedc%N); (6, 0, 0x2020e1d1210c325fcedc%N); (7, 0, 0x2020e1d1210c325fcedc%N); (8, 0, 0x2020e1d1210c325fcedc%N); (9, 0, 0x2020e1d1210c325fcedc%N); (10, 0, 0x2020e1d1210c325fcedc%N); (11, 0, 0x2020e1d1210c325fcedc%N); (12, 0, 0x2020e1d1210c325fcedc%N); (15, 0, 0x2020e0d02108325bcacc%N); (16, 0, 0x2020e0d02108325bcacc%N); (17, 0, 0x2020e0d02108325bcacc%N); (18, 0, 0x2020e0d02108325bcacc%N); (19, 0, 0x2020e0d02108325bcacc%N); (20, 0, 0x2020e0d02108325bcacc%N); (20, 1, 0x2020e0d02108325bcacc%N); (21, 0, 0x2020e0d02108325bcacc%N); (22, 0, 0x2020e0d02108325bcacc%N); (23, 0, 0x2020e0d02108325bcacc%N); (138, 3, 0xfdb0a2606918c24b130%N)]
     [(1%N, 1); (3%N, 2); (4%N, 81); (6%N, 4); (19%N, 318); (24%N, 7); (33%N, 13); (34%N, 14); (43%N, 19); (46%N, 21); (48%N, 23); (51%N, 26); (66%N, 34); (1000%N, 70); (1001%N, 69); (1003%N, 90)];
   mkst [(139, 3, 0xfdb0a2606918c24b130%N)]
     [];
   mkst [(124, 0, 0x804080948070100005a%N); (125, 0, 0x804080948070100005a%N); (126, 0, 0x804080948070100005a%N); (135, 3, 0xfdb0a2606918c24b130%N); (147, 0, 0x804080948070100005a%N); (148, 0, 0x804080948070100005a%N)]
     [(32%N, 12); (59%N, 30); (75%N, 42); (1037%N, 185); (1042%N, 319)];
   mkst [(134, 3, 0xfdb0a2606918c24b130%N)]
     [(19%N, 320)];
   mkst [(0, 0, 0x2020e1d1210c325fcedc%N); (1, 0, 0x2020e1d1210c325fcedc%N); (2, 0, 0x2020e1d1210c325fcedc%N); (3, 0, 0x2020e1d1210c325fcedc%N); (4, 0, 0x2020e1d1210c325fcedc%N); (5, 0, 0x2020e1d1210c325fcedc%N); (6, 0, 0x2020e1d1210c325fcedc%N); (7, 0, 0x2020e1d1210c325fcedc%N); (8, 0, 0x2020e1d1210c325fcedc%N); (9, 0, 0x2020e1d1210c325fcedc%N); (10, 0, 0x2020e1d1210c325fcedc%N); (11, 0, 0x2020e1d1210c325fcedc%N); (12, 0, 0x2020e1d1210c325fcedc%N); (15, 0, 0x2020e0d02108325bcacc%N); (16, 0, 0x2020e0d02108325bcacc%N); (17, 0, 0x2020e0d02108325bcacc%N); (18, 0, 0x2020e0d02108325bcacc%N); (19, 0, 0x2020e0d02108325bcacc%N); (20, 0, 0x2020e0d02108325bcacc%N); (21, 0, 0x2020e0d02108325bcacc%N); (22, 0, 0x2020e0d02108325bcacc%N); (23, 0, 0x2020e0d02108325bcacc%N); (24, 0, 0xc0902100305b4acc%N); (25, 0, 0xc0902100305b4acc%N); (26, 0, 0xc0902100305b4acc%N); (27, 0, 0xc0902100305b4acc%N); (28, 0, 0xc0902100305b4acc%N); (29, 0, 0xc0902100305b4acc%N); (30, 0, 0xc0902100305b4288%N); (31, 0, 0xc0902100305b4288%N); (32, 0, 0xc0902100305b4288%N); (33, 0, 0xc0902100305b4008%N); (34, 0, 0xc0902100305b4008%N); (35, 0, 0xc0902100305b4008%N); (36, 0, 0x902100305b4008%N); (37, 0, 0x902100305b4008%N); (38, 0, 0x902100305b4008%N); (39, 0, 0x902100305b4008%N); (40, 0, 0x902100305b4008%N); (41, 0, 0x800100305a0008%N); (42, 0, 0x800100305a0008%N); (43, 0, 0x800100305a0008%N); (44, 0, 0x305a0008%N); (45, 0, 0x305a0008%N); (46, 0, 0x305a0000%N); (47, 0, 0x305a0000%N); (48, 0, 0x304a0000%N); (49, 0, 0x304a0000%N); (50, 0, 0x300a0000%N); (51, 0, 0x300a0000%N); (52, 0, 0x200a0000%N); (53, 0, 0x200a0000%N); (54, 0, 0x80000%N); (55, 0, 0x80000%N); (57, 0, 0x80000%N); (58, 0, 0x80000%N); (59, 0, 0x80000%N); (60, 0, 0x80000%N); (61, 0, 0x80000%N); (62, 0, 0x80000%N); (63, 0, 0x80000%N); (64, 0, 0x80000%N); (124, 0, 0x80c080948070108005a%N); (125, 0, 0x80c080948070108005a%N); (126, 0, 0x80c080948070108005a%N); (132, 3, 0xfdb0a2606918c24b130%N); (133, 3, 0xfdb0a2606918c24b130%N); (136, 3, 0xfdb0a2606918c24b130%N); (137, 3, 0xfdb0a2606918c24b130%N); (148, 1, 0x80c080948070108005a%N)]
     [(1%N, 1); (3%N, 2); (4%N, 3); (6%N, 321); (19%N, 322); (24%N, 7); (32%N, 12); (33%N, 13); (34%N, 14); (43%N, 19); (46%N, 21); (48%N, 23); (51%N, 26); (59%N, 30); (66%N, 34); (67%N, 323); (75%N, 42); (1000%N, 70); (1001%N, 69); (1003%N, 80); (1004%N, 47); (1005%N, 68); (1006%N, 44); (1007%N, 73); (1008%N, 71); (1009%N, 56); (1010%N, 45); (1011%N, 57); (1012%N, 63); (1013%N, 66); (1014%N, 67); (1015%N, 49); (1017%N, 324); (1037%N, 254)];
   mkst [(76, 3, 0x2100%N)]
     [];
   mkst [(0, 0, 0xc191210430df7ffc%N); (1, 0, 0xc191210430df7ffc%N); (2, 0, 0xc191210430df7ffc%N); (3, 0, 0xc191210430df7ffc%N); (4, 0, 0xc191210430df7ffc%N); (5, 0, 0xc191210430df7ffc%N); (6, 0, 0xc191210430df7ffc%N); (7, 0, 0xc191210430df7ffc%N); (8, 0, 0xc191210430df7ffc%N); (9, 0, 0xc191210430df7ffc%N); (10, 0, 0xc191210430df7ffc%N); (11, 0, 0xc191210430df7ffc%N); (12, 0, 0xc191210430df7ffc%N); (15, 0, 0xc090210030db7bec%N); (16, 0, 0xc090210030db7bec%N); (17, 0, 0xc090210030db7bec%N); (18, 0, 0xc090210030db7bec%N); (19, 0, 0xc090210030db7bec%N); (20, 0, 0xc090210030db7bec%N); (21, 0, 0xc090210030db7bec%N); (22, 0, 0xc090210030db7bec%N); (23, 0, 0xc090210030db7bec%N); (24, 0, 0xc090210030db7bec%N); (25, 0, 0xc090210030db7bec%N); (26, 0, 0xc090210030db7bec%N); (27, 0, 0xc090210030db7bec%N); (28, 0, 0xc090210030db7bec%N); (29, 0, 0xc090210030db7bec%N); (30, 0, 0xc090210030db73a8%N); (31, 0, 0xc090210030db73a8%N); (32, 0, 0xc090210030db73a8%N); (33, 0, 0xc090210030db7128%N); (34, 0, 0xc090210030db7128%N); (35, 0, 0xc090210030db7128%N); (36, 0, 0x90210030db7128%N); (37, 0, 0x90210030db7128%N); (38, 0, 0x90210030db7128%N); (39, 0, 0x90210030db7128%N); (40, 0, 0x90210030db7128%N); (41, 0, 0x80010030da3128%N); (42, 0, 0x80010030da3128%N); (43, 0, 0x80010030da3128%N); (44, 0, 0x30da3128%N); (45, 0, 0x30da3128%N); (46, 0, 0x30da3120%N); (47, 0, 0x30da3120%N); (48, 0, 0x30ca3120%N); (49, 0, 0x30ca3120%N); (50, 0, 0x308a3120%N); (51, 0, 0x308a3120%N); (52, 0, 0x208a3120%N); (53, 0, 0x208a3120%N); (54, 0, 0x883120%N); (55, 0, 0x883120%N); (55, 4, 0x883120%N)]
     [(1%N, 1); (3%N, 2); (4%N, 3); (6%N, 4); (24%N, 7); (33%N, 13); (34%N, 14); (43%N, 19); (46%N, 21); (48%N, 23); (51%N, 26); (66%N, 34); (1000%N, 70); (1001%N, 69); (1003%N, 180); (1004%N, 47); (1005%N, 68); (1006%N, 44); (1007%N, 73); (1008%N, 71); (1009%N, 56); (1010%N, 45); (1011%N, 57); (1012%N, 63); (1013%N, 66); (1014%N, 67); (1015%N, 325)];
   mkst [(7, 4, 0x2020e1d1210c32dffffc%N)]
     [];
   mkst [(0, 0, 0x2020e1d1210c3257cffc%N); (1, 0, 0x2020e1d1210c3257cffc%N); (2, 0, 0x2020e1d1210c3257cffc%N); (3, 0, 0x2020e1d1210c3257cffc%N); (4, 0, 0x2020e1d1210c3257cffc%N); (5, 0, 0x2020e1d1210c3257cffc%N); (6, 0, 0x2020e1d1210c3257cffc%N); (7, 0, 0x2020e1d1210c3257cffc%N); (8, 0, 0x2020e1d1210c3257cffc%N); (9, 0, 0x2020e1d1210c3257cffc%N); (10, 0, 0x2020e1d1210c3257cffc%N); (11, 0, 0x2020e1d1210c3257cffc%N); (12, 0, 0x2020e1d1210c3257cffc%N); (14, 2, 0x120%N); (15, 0, 0x2020e0d021083253cbec%N); (16, 0, 0x2020e0d021083253cbec%N); (17, 0, 0x2020e0d021083253cbec%N); (18, 0, 0x2020e0d021083253cbec%N); (19, 0, 0x2020e0d021083253cbec%N); (20, 0, 0x2020e0d021083253cbec%N); (21, 0, 0x2020e0d021083253cbec%N); (22, 0, 0x2020e0d021083253cbec%N); (23, 0, 0x2020e0d021083253cbec%N); (24, 0, 0xc090210030534bec%N); (25, 0, 0xc090210030534bec%N); (26, 0, 0xc090210030534bec%N); (27, 0, 0xc090210030534bec%N); (28, 0, 0xc090210030534bec%N); (29, 0, 0xc090210030534bec%N); (30, 0, 0xc0902100305343a8%N); (31, 0, 0xc0902100305343a8%N); (32, 0, 0xc0902100305343a8%N); (33, 0, 0xc090210030534128%N); (34, 0, 0xc090210030534128%N); (35, 0, 0xc090210030534128%N); (36, 0, 0x90210030534128%N); (37, 0, 0x90210030534128%N); (38, 0, 0x90210030534128%N); (39, 0, 0x90210030534128%N); (40, 0, 0x90210030534128%N); (41, 0, 0x80010030520128%N); (42, 0, 0x80010030520128%N); (43, 0, 0x80010030520128%N); (44, 0, 0x30520128%N); (45, 0, 0x30520128%N); (46, 0, 0x30520120%N); (47, 0, 0x30520120%N); (48, 0, 0x30420120%N); (49, 0, 0x30420120%N); (50, 0, 0x30020120%N); (51, 0, 0x30020120%N); (52, 0, 0x20020120%N); (53, 0, 0x20020120%N); (54, 0, 0x120%N); (55, 0, 0x120%N); (57, 0, 0x120%N); (58, 0, 0x120%N); (59, 0, 0x120%N); (60, 0, 0x120%N); (61, 0, 0x120%N); (62, 0, 0x120%N); (63, 0, 0x120%N); (64, 0, 0x120%N)]
     [(1%N, 1); (3%N, 2); (4%N, 3); (6%N, 4); (24%N, 7); (33%N, 13); (34%N, 14); (43%N, 19); (46%N, 21); (48%N, 23); (51%N, 26); (66%N, 34); (1000%N, 70); (1001%N, 69); (1003%N, 80); (1004%N, 47); (1005%N, 68); (1006%N, 44); (1007%N, 73); (1008%N, 71); (1009%N, 56); (1010%N, 45); (1011%N, 57); (1012%N, 63); (1013%N, 66); (1014%N, 67); (1015%N, 49); (1017%N, 326)];
   mkst [(8, 4, 0x2020e1d1210c32dffffc%N)]
     [];
   mkst [(0, 0, 0xc191210430576fdc%N); (1, 0, 0xc191210430576fdc%N); (2, 0, 0xc191210430576fdc%N); (3, 0, 0xc191210430576fdc%N); (4, 0, 0xc191210430576fdc%N); (5, 0, 0xc191210430576fdc%N); (6, 0, 0xc191210430576fdc%N); (7, 0, 0xc191210430576fdc%N); (8, 0, 0xc191210430576fdc%N); (9, 0, 0xc191210430576fdc%N); (10, 0, 0xc191210430576fdc%N); (11, 0, 0xc191210430576fdc%N); (12, 0, 0xc191210430576fdc%N); (15, 0, 0xc090210030536bcc%N); (16, 0, 0xc090210030536bcc%N); (17, 0, 0xc090210030536bcc%N); (18, 0, 0xc090210030536bcc%N); (19, 0, 0xc090210030536bcc%N); (20, 0, 0xc090210030536bcc%N); (21, 0, 0xc090210030536bcc%N); (22, 0, 0xc090210030536bcc%N); (23, 0, 0xc090210030536bcc%N); (24, 0, 0xc090210030536bcc%N); (25, 0, 0xc090210030536bcc%N); (26, 0, 0xc090210030536bcc%N); (27, 0, 0xc090210030536bcc%N); (28, 0, 0xc090210030536bcc%N); (29, 0, 0xc090210030536bcc%N); (30, 0, 0xc090210030536388%N); (31, 0, 0xc090210030536388%N); (32, 0, 0xc090210030536388%N); (33, 0, 0xc090210030536108%N); (34, 0, 0xc090210030536108%N); (35, 0, 0xc090210030536108%N); (36, 0, 0x90210030536108%N); (37, 0, 0x90210030536108%N); (38, 0, 0x90210030536108%N); (39, 0, 0x90210030536108%N); (40, 0, 0x90210030536108%N); (41, 0, 0x80010030522108%N); (42, 0, 0x80010030522108%N); (43, 0, 0x80010030522108%N); (44, 0, 0x30522108%N); (45, 0, 0x30522108%N); (46, 0, 0x30522100%N); (47, 0, 0x30522100%N); (48, 0, 0x30422100%N); (49, 0, 0x30422100%N); (50, 0, 0x30022100%N); (51, 0, 0x30022100%N); (52, 0, 0x20022100%N); (53, 0, 0x20022100%N); (54, 0, 0x2100%N); (55, 0, 0x2100%N); (56, 0, 0x2100%N); (113, 1, 0x2100%N)]
     [(1%N, 1); (3%N, 2); (4%N, 3); (6%N, 4); (24%N, 7); (33%N, 13); (34%N, 14); (43%N, 19); (46%N, 21); (48%N, 23); (51%N, 26); (66%N, 34); (1000%N, 70); (1001%N, 69); (1003%N, 180); (1004%N, 47); (1005%N, 68); (1006%N, 44); (1007%N, 73); (1008%N, 71); (1009%N, 56); (1010%N, 45); (1011%N, 57); (1012%N, 63); (1013%N, 66); (1014%N, 67); (1015%N, 296); (1016%N, 327)];
   mkst [(105, 2, 0xf930824049188800000%N)]
     [];
   mkst [(112, 1, 0x2100%N); (114, 1, 0x2100%N)]
     [(12%N, 328)];
   mkst [(110, 1, 0x2100%N)]
     [];
   mkst [(104, 2, 0xf930824049188800000%N); (111, 1, 0x2100%N)]
     [(8%N, 329); (13%N, 330)];
   mkst [(98, 4, 0xfdb0a2646918c043170%N)]
     [];
   mkst [(103, 2, 0xf930824049188800000%N)]
     [];
   mkst [(84, 0, 0xf930824449188003050%N); (85, 0, 0xf930824449188003050%N); (86, 0, 0xf930824449188003050%N); (87, 0, 0xf930824449188003050%N); (88, 0, 0xf930824449188003050%N); (89, 0, 0xf930824449188003050%N); (90, 0, 0xf930824449188003050%N); (91, 0, 0xf930824449188003050%N); (92, 0, 0xf930824449188003050%N); (93, 0, 0xf930824449188003050%N); (94, 0, 0xf930824449188003050%N); (95, 0, 0xf930824449188003050%N); (96, 0, 0xf930824449188003050%N); (97, 0, 0xf930824449188003050%N); (97, 4, 0xfdb0a2646918c043170%N); (98, 0, 0xf930824449188003050%N); (99, 0, 0xf930824449188003050%N); (100, 0, 0x400000200000%N); (101, 0, 0x400000200000%N); (103, 1, 0xf930824049188800000%N); (104, 0, 0xf930824049188800000%N); (105, 0, 0xf930824049188800000%N); (106, 0, 0xf930824449188003050%N); (107, 0, 0xf930824449188003050%N); (108, 0, 0xf930824449188003050%N); (109, 0, 0xf930824449188003050%N); (115, 0, 0xf930824449188003050%N); (116, 0, 0xf930824449188003050%N); (117, 0, 0xf930824449188003050%N); (118, 0, 0xf930824449188003050%N); (119, 0, 0xf930824449188003050%N); (124, 0, 0xf930824449188003050%N); (125, 0, 0xf930824449188003050%N); (126, 0, 0xf930824449188003050%N)]
     [(23%N, 331); (27%N, 9); (31%N, 11); (32%N, 12); (36%N, 15); (39%N, 16); (42%N, 18); (50%N, 25); (53%N, 27); (59%N, 30); (64%N, 32); (65%N, 33); (68%N, 36); (71%N, 38); (72%N, 39); (73%N, 40); (74%N, 41); (75%N, 42); (1025%N, 89); (1026%N, 77); (1027%N, 76); (1029%N, 280); (1030%N, 219); (1031%N, 85); (1034%N, 55); (1037%N, 88)];
   mkst [(163, 3, 0x40130%N)]
     [];
   mkst [(69, 0, 0xfdb0a2646918c040170%N); (70, 0, 0xfdb0a2646918c040170%N); (71, 0, 0xfdb0a2646918c040170%N); (72, 0, 0xfdb0a2646918c040170%N); (73, 0, 0xfdb0a2646918c040170%N); (74, 0, 0xfdb0a2646918c040170%N); (79, 0, 0xfdb0a2646918c040170%N); (80, 0, 0xfdb0a2646918c040170%N); (81, 0, 0xfdb0a2646918c040170%N); (82, 0, 0xfdb0a2646918c040170%N); (83, 0, 0xfdb0a2646918c040170%N); (84, 0, 0xfdb0a2646918c040170%N); (85, 0, 0xfdb0a2646918c040170%N); (86, 0, 0xfdb0a2646918c040170%N); (87, 0, 0xfdb0a2646918c040170%N); (88, 0, 0xfdb0a2646918c040170%N); (89, 0, 0xfdb0a2646918c040170%N); (90, 0, 0xfdb0a2646918c040170%N); (91, 0, 0xfdb0a2646918c040170%N); (92, 0, 0xfdb0a2646918c040170%N); (93, 0, 0xfdb0a2646918c040170%N); (94, 0, 0xfdb0a2646918c040170%N); (95, 0, 0xfdb0a2646918c040170%N); (96, 0, 0xfdb0a2646918c040170%N); (97, 0, 0xfdb0a2646918c040170%N); (98, 0, 0xfdb0a2646918c040170%N); (99, 0, 0xfdb0a2646918c040170%N); (100, 0, 0x400000200000%N); (101, 0, 0x400000200000%N); (115, 0, 0xfdb0a2646918c040170%N); (116, 0, 0xfdb0a2646918c040170%N); (117, 0, 0xfdb0a2646918c040170%N); (118, 0, 0xfdb0a2646918c040170%N); (119, 0, 0xfdb0a2646918c040170%N); (124, 0, 0xfdb0a2646918c040170%N); (125, 0, 0xfdb0a2646918c040170%N); (126, 0, 0xfdb0a2646918c040170%N); (127, 0, 0xfdb0a2646918c040170%N); (128, 0, 0x20%N); (129, 0, 0x20%N); (130, 0, 0x40030%N); (131, 0, 0x40030%N); (131, 1, 0x40130%N); (132, 0, 0x40030%N); (133, 0, 0x40030%N); (134, 0, 0x40030%N); (135, 0, 0x40030%N); (136, 0, 0x40030%N); (137, 0, 0x40030%N); (138, 0, 0x40030%N); (139, 0, 0x40030%N); (140, 0, 0x40030%N); (141, 0, 0x40030%N); (142, 0, 0x40030%N); (143, 0, 0x400000040030%N); (144, 0, 0x400000040030%N); (145, 0, 0x400000040030%N); (146, 0, 0x400000040030%N); (149, 0, 0x20%N); (150, 0, 0x20%N); (151, 0, 0x120%N); (152, 0, 0x120%N); (153, 0, 0x120%N); (154, 0, 0x120%N); (155, 0, 0x120%N); (160, 0, 0x20%N); (161, 0, 0x20%N); (162, 0, 0x20%N); (163, 0, 0x40030%N); (163, 1, 0x40130%N); (164, 0, 0x40030%N); (165, 0, 0x40030%N); (166, 0, 0x40030%N); (167, 0, 0x40030%N); (168, 0, 0x40030%N); (169, 0, 0x40030%N); (170, 0, 0x40030%N); (170, 1, 0x40130%N); (171, 0, 0x40030%N); (171, 1, 0x40130%N); (172, 0, 0x40030%N); (173, 0, 0x40030%N)]
     [(4%N, 283); (5%N, 230); (6%N, 116); (18%N, 160); (26%N, 8); (27%N, 9); (31%N, 11); (32%N, 12); (36%N, 15); (39%N, 16); (41%N, 17); (42%N, 18); (46%N, 118); (49%N, 24); (50%N, 25); (53%N, 27); (57%N, 28); (59%N, 30); (64%N, 32); (65%N, 33); (67%N, 35); (68%N, 36); (70%N, 37); (71%N, 38); (72%N, 39); (73%N, 40); (74%N, 41); (75%N, 42); (1020%N, 232); (1021%N, 53); (1024%N, 75); (1025%N, 79); (1026%N, 77); (1027%N, 76); (1034%N, 55); (1037%N, 78); (1038%N, 62); (1039%N, 183); (1040%N, 121); (1041%N, 286); (1043%N, 235); (1044%N, 234); (1045%N, 233); (1048%N, 231); (1049%N, 162)];
   mkst [(154, 2, 0x120%N)]
     [];
   mkst [(153, 2, 0x120%N)]
     [];
   mkst [(129, 1, 0x120%N); (130, 0, 0x40130%N); (131, 0, 0x40130%N); (132, 0, 0x40130%N); (133, 0, 0x40130%N); (134, 0, 0x40130%N); (135, 0, 0x40130%N); (136, 0, 0x40130%N); (137, 0, 0x40130%N); (138, 0, 0x40130%N); (139, 0, 0x40130%N); (140, 0, 0x40130%N); (141, 0, 0x40130%N); (142, 0, 0x40130%N); (160, 1, 0x120%N); (162, 1, 0x120%N); (163, 0, 0x40130%N); (164, 0, 0x40130%N); (165, 0, 0x40130%N); (166, 0, 0x40130%N); (167, 0, 0x40130%N); (168, 0, 0x40130%N); (169, 0, 0x40130%N); (170, 0, 0x40130%N); (171, 0, 0x40130%N); (172, 0, 0x40130%N); (173, 0, 0x40130%N)]
     [(4%N, 283); (18%N, 160); (46%N, 118); (1040%N, 195); (1049%N, 241)];
   mkst [(69, 0, 0xfdb0a2646918c040170%N); (70, 0, 0xfdb0a2646918c040170%N); (71, 0, 0xfdb0a2646918c040170%N); (72, 0, 0xfdb0a2646918c040170%N); (73, 0, 0xfdb0a2646918c040170%N); (74, 0, 0xfdb0a2646918c040170%N); (79, 0, 0xfdb0a2646918c040170%N); (80, 0, 0xfdb0a2646918c040170%N); (81, 0, 0xfdb0a2646918c040170%N); (82, 0, 0xfdb0a2646918c040170%N); (83, 0, 0xfdb0a2646918c040170%N); (84, 0, 0xfdb0a2646918c040170%N); (85, 0, 0xfdb0a2646918c040170%N); (86, 0, 0xfdb0a2646918c040170%N); (87, 0, 0xfdb0a2646918c040170%N); (88, 0, 0xfdb0a2646918c040170%N); (89, 0, 0xfdb0a2646918c040170%N); (90, 0, 0xfdb0a2646918c040170%N); (91, 0, 0xfdb0a2646918c040170%N); (92, 0, 0xfdb0a2646918c040170%N); (93, 0, 0xfdb0a2646918c040170%N); (94, 0, 0xfdb0a2646918c040170%N); (95, 0, 0xfdb0a2646918c040170%N); (96, 0, 0xfdb0a2646918c040170%N); (97, 0, 0xfdb0a2646918c040170%N); (98, 0, 0xfdb0a2646918c040170%N); (99, 0, 0xfdb0a2646918c040170%N); (100, 0, 0x400000200000%N); (101, 0, 0x400000200000%N); (115, 0, 0xfdb0a2646918c040170%N); (116, 0, 0xfdb0a2646918c040170%N); (117, 0, 0xfdb0a2646918c040170%N); (118, 0, 0xfdb0a2646918c040170%N); (119, 0, 0xfdb0a2646918c040170%N); (124, 0, 0xfdb0a2646918c040170%N); (125, 0, 0xfdb0a2646918c040170%N); (126, 0, 0xfdb0a2646918c040170%N); (127, 0, 0xfdb0a2646918c040170%N); (150, 2, 0x20%N); (152, 2, 0x120%N); (153, 0, 0x120%N); (154, 0, 0x120%N); (155, 0, 0x120%N)]
     [(26%N, 8); (27%N, 9); (31%N, 11); (32%N, 12); (36%N, 15); (37%N, 332); (39%N, 16); (41%N, 17); (42%N, 18); (49%N, 24); (50%N, 25); (53%N, 27); (57%N, 28); (59%N, 30); (64%N, 32); (65%N, 33); (67%N, 35); (68%N, 36); (70%N, 37); (71%N, 38); (72%N, 39); (73%N, 40); (74%N, 41); (75%N, 42); (1020%N, 232); (1021%N, 53); (1024%N, 75); (1025%N, 79); (1026%N, 77); (1027%N, 76); (1034%N, 55); (1037%N, 78); (1038%N, 62); (1045%N, 333)];
   mkst [(171, 3, 0x40130%N)]
     [];
   mkst [(168, 3, 0x40130%N)]
     [];
   mkst [(165, 3, 0x40130%N)]
     [];
   mkst [(172, 3, 0x40130%N)]
     [];
   mkst [(173, 3, 0x40130%N)]
     [(5%N, 334)];
   mkst [(0, 0, 0x2020e1d1210c325fcedc%N); (1, 0, 0x2020e1d1210c325fcedc%N); (2, 0, 0x2020e1d1210c325fcedc%N); (3, 0, 0x2020e1d1210c325fcedc%N); (4, 0, 0x2020e1d1210c325fcedc%N); (5, 0, 0x2020e1d1210c325fcedc%N); (6, 0, 0x2020e1d1210c325fcedc%N); (7, 0, 0x2020e1d1210c325fcedc%N); (8, 0, 0x2020e1d1210c325fcedc%N); (9, 0, 0x2020e1d1210c325fcedc%N); (10, 0, 0x2020e1d1210c325fcedc%N); (11, 0, 0x2020e1d1210c325fcedc%N); (12, 0, 0x2020e1d1210c325fcedc%N); (15, 0, 0x2020e0d02108325bcacc%N); (16, 0, 0x2020e0d02108325bcacc%N); (17, 0, 0x2020e0d02108325bcacc%N); (18, 0, 0x2020e0d02108325bcacc%N); (19, 0, 0x2020e0d02108325bcacc%N); (20, 0, 0x2020e0d02108325bcacc%N); (20, 1, 0x2020e0d02108325bcacc%N); (21, 0, 0x2020e0d02108325bcacc%N); (22, 0, 0x2020e0d02108325bcacc%N); (23, 0, 0x2020e0d02108325bcacc%N); (169, 3, 0x40130%N)]
     [(1%N, 1); (3%N, 2); (4%N, 81); (6%N, 4); (19%N, 335); (24%N, 7); (33%N, 13); (34%N, 14); (43%N, 19); (46%N, 21); (48%N, 23); (51%N, 26); (66%N, 34); (1000%N, 70); (1001%N, 69); (1003%N, 90)];
   mkst [(166, 3, 0x40130%N)]
     [];
   mkst [(167, 3, 0x40130%N)]
     [(19%N, 336)];
   mkst [(56, 1, 0x882100%N)]
     [];
   mkst [(123, 3, 0x800100%N)]
     [];
   mkst [(117, 5, 0xfdb0a2646918c043170%N)]
     [];
   mkst [(121, 3, 0x800100%N)]
     [];
   mkst [(118, 5, 0xfdb0a2646918c043170%N); (121, 2, 0x800100%N); (122, 0, 0x800100%N); (123, 0, 0x800100%N)]
     [(23%N, 337); (46%N, 169); (1036%N, 299)];
   mkst [(116, 5, 0xfdb0a2646918c043170%N)]
     [];
   mkst [(0, 0, 0x2020e1d1210c3257efdc%N); (1, 0, 0x2020e1d1210c3257efdc%N); (2, 0, 0x2020e1d1210c3257efdc%N); (3, 0, 0x2020e1d1210c3257efdc%N); (4, 0, 0x2020e1d1210c3257efdc%N); (5, 0, 0x2020e1d1210c3257efdc%N); (6, 0, 0x2020e1d1210c3257efdc%N); (7, 0, 0x2020e1d1210c3257efdc%N); (8, 0, 0x2020e1d1210c3257efdc%N); (9, 0, 0x2020e1d1210c3257efdc%N); (10, 0, 0x2020e1d1210c3257efdc%N); (11, 0, 0x2020e1d1210c3257efdc%N); (12, 0, 0x2020e1d1210c3257efdc%N); (15, 0, 0x2020e0d021083253ebcc%N); (16, 0, 0x2020e0d021083253ebcc%N); (17, 0, 0x2020e0d021083253ebcc%N); (18, 0, 0x2020e0d021083253ebcc%N); (19, 0, 0x2020e0d021083253ebcc%N); (20, 0, 0x2020e0d021083253ebcc%N); (21, 0, 0x2020e0d021083253ebcc%N); (22, 0, 0x2020e0d021083253ebcc%N); (23, 0, 0x2020e0d021083253ebcc%N); (24, 0, 0xc090210030536bcc%N); (25, 0, 0xc090210030536bcc%N); (26, 0, 0xc090210030536bcc%N); (27, 0, 0xc090210030536bcc%N); (28, 0, 0xc090210030536bcc%N); (29, 0, 0xc090210030536bcc%N); (30, 0, 0xc090210030536388%N); (31, 0, 0xc090210030536388%N); (32, 0, 0xc090210030536388%N); (33, 0, 0xc090210030536108%N); (34, 0, 0xc090210030536108%N); (35, 0, 0xc090210030536108%N); (36, 0, 0x90210030536108%N); (37, 0, 0x90210030536108%N); (38, 0, 0x90210030536108%N); (39, 0, 0x90210030536108%N); (40, 0, 0x90210030536108%N); (41, 0, 0x80010030522108%N); (42, 0, 0x80010030522108%N); (43, 0, 0x80010030522108%N); (44, 0, 0x30522108%N); (45, 0, 0x30522108%N); (46, 0, 0x30522100%N); (47, 0, 0x30522100%N); (48, 0, 0x30422100%N); (49, 0, 0x30422100%N); (50, 0, 0x30022100%N); (51, 0, 0x30022100%N); (52, 0, 0x20022100%N); (53, 0, 0x20022100%N); (54, 0, 0x2100%N); (55, 0, 0x2100%N); (57, 0, 0x2100%N); (58, 0, 0x2100%N); (59, 0, 0x2100%N); (60, 0, 0x2100%N); (61, 0, 0x2100%N); (62, 0, 0x2100%N); (63, 0, 0x2100%N); (64, 0, 0x2100%N); (65, 0, 0x2100%N); (66, 0, 0x2100%N); (186, 0, 0x1fdf1e2fded7cda0205b%N); (187, 0, 0x1fdf1e2fded7cda0205b%N); (188, 0, 0x1fdf1e2fded7cda0205b%N); (189, 0, 0x1fdf1e2fded7cda0205b%N); (190, 0, 0x1fdf1e2fded7cda0205b%N); (191, 0, 0x1fdf1e2fded7cda0205b%N); (192, 0, 0x1fdf1e2fded7cda0205b%N); (193, 0, 0x1fdf1e2fded7cda0205b%N); (194, 0, 0x1fdf1e2fded7cda0205b%N); (195, 0, 0x1fdf1e2fded7cda0205b%N); (200, 0, 0x1fdf1e2fded7cda0205b%N); (201, 0, 0x1fdf1e2fded7cda0205b%N); (202, 0, 0x1fdf1e2fded7cda0205b%N); (203, 0, 0x1fdf1e2fded7cda0205b%N); (204, 0, 0x1fdf1e2fded7cda0205b%N); (205, 0, 0x1fdf1e2fded7cda0205b%N); (205, 5, 0x1fdf1e2fded7cda0205b%N); (206, 0, 0x1fdf1e2fded7cda0205b%N); (207, 0, 0x1fdf1e2fded7cda0205b%N); (208, 0, 0x1fdf1e2fded7cda0205b%N); (209, 0, 0x1fdf1e2fded7cda0205b%N)]
     [(1%N, 1); (3%N, 2); (4%N, 3); (6%N, 4); (13%N, 5); (21%N, 6); (24%N, 7); (30%N, 10); (33%N, 13); (34%N, 14); (43%N, 19); (44%N, 20); (46%N, 21); (47%N, 22); (48%N, 23); (51%N, 26); (58%N, 29); (60%N, 31); (66%N, 34); (76%N, 43); (1000%N, 70); (1001%N, 69); (1003%N, 80); (1004%N, 47); (1005%N, 68); (1006%N, 44); (1007%N, 73); (1008%N, 71); (1009%N, 56); (1010%N, 45); (1011%N, 57); (1012%N, 63); (1013%N, 66); (1014%N, 67); (1015%N, 49); (1017%N, 46); (1018%N, 58); (1055%N, 59); (1058%N, 338); (1059%N, 48); (1062%N, 72); (1063%N, 64); (1064%N, 65)];
   mkst [(66, 1, 0x120%N); (206, 5, 0x1fdf1e2fded7cda0205b%N)]
     [(5%N, 339); (8%N, 128)];
   mkst [(0, 0, 0x2020e1d1210c3257efdc%N); (1, 0, 0x2020e1d1210c3257efdc%N); (2, 0, 0x2020e1d1210c3257efdc%N); (3, 0, 0x2020e1d1210c3257efdc%N); (4, 0, 0x2020e1d1210c3257efdc%N); (5, 0, 0x2020e1d1210c3257efdc%N); (6, 0, 0x2020e1d1210c3257efdc%N); (7, 0, 0x2020e1d1210c3257efdc%N); (8, 0, 0x2020e1d1210c3257efdc%N); (9, 0, 0x2020e1d1210c3257efdc%N); (10, 0, 0x2020e1d1210c3257efdc%N); (11, 0, 0x2020e1d1210c3257efdc%N); (12, 0, 0x2020e1d1210c3257efdc%N); (15, 0, 0x2020e0d021083253ebcc%N); (16, 0, 0x2020e0d021083253ebcc%N); (17, 0, 0x2020e0d021083253ebcc%N); (18, 0, 0x2020e0d021083253ebcc%N); (19, 0, 0x2020e0d021083253ebcc%N); (20, 0, 0x2020e0d021083253ebcc%N); (21, 0, 0x2020e0d021083253ebcc%N); (22, 0, 0x2020e0d021083253ebcc%N); (23, 0, 0x2020e0d021083253ebcc%N); (24, 0, 0xc090210030536bcc%N); (25, 0, 0xc090210030536bcc%N); (26, 0, 0xc090210030536bcc%N); (27, 0, 0xc090210030536bcc%N); (28, 0, 0xc090210030536bcc%N); (29, 0, 0xc090210030536bcc%N); (30, 0, 0xc090210030536388%N); (31, 0, 0xc090210030536388%N); (32, 0, 0xc090210030536388%N); (33, 0, 0xc090210030536108%N); (34, 0, 0xc090210030536108%N); (35, 0, 0xc090210030536108%N); (36, 0, 0x90210030536108%N); (37, 0, 0x90210030536108%N); (38, 0, 0x90210030536108%N); (39, 0, 0x90210030536108%N); (40, 0, 0x90210030536108%N); (41, 0, 0x80010030522108%N); (42, 0, 0x80010030522108%N); (43, 0, 0x80010030522108%N); (44, 0, 0x30522108%N); (45, 0, 0x30522108%N); (46, 0, 0x30522100%N); (47, 0, 0x30522100%N); (48, 0, 0x30422100%N); (49, 0, 0x30422100%N); (50, 0, 0x30022100%N); (51, 0, 0x30022100%N); (52, 0, 0x20022100%N); (53, 0, 0x20022100%N); (54, 0, 0x2100%N); (55, 0, 0x2100%N); (57, 0, 0x2100%N); (58, 0, 0x2100%N); (59, 0, 0x2100%N); (60, 0, 0x2100%N); (61, 0, 0x2100%N); (62, 0, 0x2100%N); (63, 0, 0x2100%N); (64, 0, 0x2100%N); (65, 0, 0x2100%N); (66, 0, 0x2100%N); (186, 0, 0x1fdf1e2fded7cda0205b%N); (187, 0, 0x1fdf1e2fded7cda0205b%N); (188, 0, 0x1fdf1e2fded7cda0205b%N); (189, 0, 0x1fdf1e2fded7cda0205b%N); (190, 0, 0x1fdf1e2fded7cda0205b%N); (191, 0, 0x1fdf1e2fded7cda0205b%N); (192, 0, 0x1fdf1e2fded7cda0205b%N); (193, 0, 0x1fdf1e2fded7cda0205b%N); (194, 0, 0x1fdf1e2fded7cda0205b%N); (195, 0, 0x1fdf1e2fded7cda0205b%N); (200, 0, 0x1fdf1e2fded7cda0205b%N); (201, 0, 0x1fdf1e2fded7cda0205b%N); (202, 0, 0x1fdf1e2fded7cda0205b%N); (203, 0, 0x1fdf1e2fded7cda0205b%N); (203, 5, 0x1fdf1e2fded7cda0205b%N); (204, 0, 0x1fdf1e2fded7cda0205b%N); (205, 0, 0x1fdf1e2fded7cda0205b%N); (206, 0, 0x1fdf1e2fded7cda0205b%N); (207, 0, 0x1fdf1e2fded7cda0205b%N); (208, 0, 0x1fdf1e2fded7cda0205b%N); (209, 0, 0x1fdf1e2fded7cda0205b%N)]
     [(1%N, 1); (3%N, 2); (4%N, 3); (6%N, 4); (13%N, 5); (21%N, 6); (24%N, 7); (30%N, 10); (33%N, 13); (34%N, 14); (43%N, 19); (44%N, 20); (46%N, 21); (47%N, 22); (48%N, 23); (51%N, 26); (58%N, 29); (60%N, 31); (66%N, 34); (76%N, 43); (1000%N, 70); (1001%N, 69); (1003%N, 80); (1004%N, 47); (1005%N, 68); (1006%N, 44); (1007%N, 73); (1008%N, 71); (1009%N, 56); (1010%N, 45); (1011%N, 57); (1012%N, 63); (1013%N, 66); (1014%N, 67); (1015%N, 49); (1017%N, 46); (1018%N, 58); (1055%N, 59); (1058%N, 340); (1059%N, 48); (1062%N, 72); (1063%N, 64); (1064%N, 65)];
   mkst [(66, 1, 0x120%N); (204, 5, 0x1fdf1e2fded7cda0205b%N)]
     [(5%N, 341); (8%N, 128)];
   mkst [(200, 5, 0x1fdf1e2fded7cda0205b%N); (201, 5, 0x1fdf1e2fded7cda0205b%N)]
     [(38%N, 342)];
   mkst [(202, 5, 0x1fdf1e2fded7cda0205b%N)]
     [];
   mkst [(185, 1, 0x48400%N)]
     [(46%N, 343)];
   mkst [(0, 0, 0xc1912104305f4edc%N); (1, 0, 0xc1912104305f4edc%N); (2, 0, 0xc1912104305f4edc%N); (3, 0, 0xc1912104305f4edc%N); (4, 0, 0xc1912104305f4edc%N); (5, 0, 0xc1912104305f4edc%N); (6, 0, 0xc1912104305f4edc%N); (7, 0, 0xc1912104305f4edc%N); (8, 0, 0xc1912104305f4edc%N); (9, 0, 0xc1912104305f4edc%N); (10, 0, 0xc1912104305f4edc%N); (11, 0, 0xc1912104305f4edc%N); (12, 0, 0xc1912104305f4edc%N); (15, 0, 0xc0902100305b4acc%N); (16, 0, 0xc0902100305b4acc%N); (17, 0, 0xc0902100305b4acc%N); (18, 0, 0xc0902100305b4acc%N); (19, 0, 0xc0902100305b4acc%N); (20, 0, 0xc0902100305b4acc%N); (21, 0, 0xc0902100305b4acc%N); (22, 0, 0xc0902100305b4acc%N); (23, 0, 0xc0902100305b4acc%N); (24, 0, 0xc0902100305b4acc%N); (25, 0, 0xc0902100305b4acc%N); (26, 0, 0xc0902100305b4acc%N); (27, 0, 0xc0902100305b4acc%N); (28, 0, 0xc0902100305b4acc%N); (29, 0, 0xc0902100305b4acc%N); (30, 0, 0xc0902100305b4288%N); (31, 0, 0xc0902100305b4288%N); (32, 0, 0xc0902100305b4288%N); (33, 0, 0xc0902100305b4008%N); (34, 0, 0xc0902100305b4008%N); (35, 0, 0xc0902100305b4008%N); (36, 0, 0x902100305b4008%N); (37, 0, 0x902100305b4008%N); (38, 0, 0x902100305b4008%N); (39, 0, 0x902100305b4008%N); (40, 0, 0x902100305b4008%N); (41, 0, 0x800100305a0008%N); (42, 0, 0x800100305a0008%N); (43, 0, 0x800100305a0008%N); (44, 0, 0x305a0008%N); (45, 0, 0x305a0008%N); (46, 0, 0x305a0000%N); (47, 0, 0x305a0000%N); (48, 0, 0x304a0000%N); (49, 0, 0x304a0000%N); (50, 0, 0x300a0000%N); (51, 0, 0x300a0000%N); (52, 0, 0x200a0000%N); (53, 0, 0x200a0000%N); (54, 0, 0x80000%N); (55, 0, 0x80000%N); (56, 0, 0x80000%N); (184, 1, 0x48400%N)]
     [(1%N, 1); (3%N, 2); (4%N, 3); (6%N, 4); (24%N, 7); (33%N, 13); (34%N, 14); (43%N, 19); (46%N, 21); (48%N, 23); (51%N, 26); (66%N, 34); (1000%N, 70); (1001%N, 69); (1003%N, 180); (1004%N, 47); (1005%N, 68); (1006%N, 44); (1007%N, 73); (1008%N, 71); (1009%N, 56); (1010%N, 45); (1011%N, 57); (1012%N, 63); (1013%N, 66); (1014%N, 67); (1015%N, 296); (1016%N, 344)];
   mkst [(0, 0, 0x2020e1d1210c32d7cfdc%N); (1, 0, 0x2020e1d1210c32d7cfdc%N); (2, 0, 0x2020e1d1210c32d7cfdc%N); (3, 0, 0x2020e1d1210c32d7cfdc%N); (4, 0, 0x2020e1d1210c32d7cfdc%N); (5, 0, 0x2020e1d1210c32d7cfdc%N); (6, 0, 0x2020e1d1210c32d7cfdc%N); (7, 0, 0x2020e1d1210c32d7cfdc%N); (8, 0, 0x2020e1d1210c32d7cfdc%N); (9, 0, 0x2020e1d1210c32d7cfdc%N); (10, 0, 0x2020e1d1210c32d7cfdc%N); (11, 0, 0x2020e1d1210c32d7cfdc%N); (12, 0, 0x2020e1d1210c32d7cfdc%N); (15, 0, 0x2020e0d0210832d3cbcc%N); (16, 0, 0x2020e0d0210832d3cbcc%N); (17, 0, 0x2020e0d0210832d3cbcc%N); (18, 0, 0x2020e0d0210832d3cbcc%N); (19, 0, 0x2020e0d0210832d3cbcc%N); (20, 0, 0x2020e0d0210832d3cbcc%N); (21, 0, 0x2020e0d0210832d3cbcc%N); (22, 0, 0x2020e0d0210832d3cbcc%N); (23, 0, 0x2020e0d0210832d3cbcc%N); (24, 0, 0xc090210030d34bcc%N); (25, 0, 0xc090210030d34bcc%N); (26, 0, 0xc090210030d34bcc%N); (27, 0, 0xc090210030d34bcc%N); (28, 0, 0xc090210030d34bcc%N); (29, 0, 0xc090210030d34bcc%N); (30, 0, 0xc090210030d34388%N); (31, 0, 0xc090210030d34388%N); (32, 0, 0xc090210030d34388%N); (33, 0, 0xc090210030d34108%N); (34, 0, 0xc090210030d34108%N); (35, 0, 0xc090210030d34108%N); (36, 0, 0x90210030d34108%N); (37, 0, 0x90210030d34108%N); (38, 0, 0x90210030d34108%N); (39, 0, 0x90210030d34108%N); (40, 0, 0x90210030d34108%N); (41, 0, 0x80010030d20108%N); (42, 0, 0x80010030d20108%N); (43, 0, 0x80010030d20108%N); (44, 0, 0x30d20108%N); (45, 0, 0x30d20108%N); (46, 0, 0x30d20100%N); (47, 0, 0x30d20100%N); (48, 0, 0x30c20100%N); (49, 0, 0x30c20100%N); (50, 0, 0x30820100%N); (51, 0, 0x30820100%N); (52, 0, 0x20820100%N); (53, 0, 0x20820100%N); (54, 0, 0x800100%N); (55, 0, 0x800100%N); (57, 0, 0x800100%N); (58, 0, 0x800100%N); (59, 0, 0x800100%N); (60, 0, 0x800100%N); (61, 0, 0x800100%N); (62, 0, 0x800100%N); (63, 0, 0x800100%N); (64, 0, 0x800100%N); (174, 0, 0x800100%N); (175, 0, 0x800100%N); (176, 0, 0x800100%N); (178, 1, 0x800100%N)]
     [(1%N, 1); (3%N, 2); (4%N, 3); (6%N, 4); (21%N, 255); (24%N, 7); (33%N, 13); (34%N, 14); (43%N, 19); (46%N, 21); (48%N, 23); (51%N, 26); (66%N, 34); (1000%N, 70); (1001%N, 69); (1003%N, 80); (1004%N, 47); (1005%N, 68); (1006%N, 44); (1007%N, 73); (1008%N, 71); (1009%N, 56); (1010%N, 45); (1011%N, 57); (1012%N, 63); (1013%N, 66); (1014%N, 67); (1015%N, 49); (1017%N, 256); (1050%N, 345)];
   mkst [(182, 1, 0x48400%N)]
     [];
   mkst [(181, 1, 0x4000948060120005a%N); (183, 1, 0x48400%N); (184, 0, 0x48400%N); (185, 0, 0x48400%N)]
     [(10%N, 308); (15%N, 346); (18%N, 309); (1054%N, 347)];
   mkst [(177, 1, 0x800100%N)]
     [];
   mkst [(175, 2, 0x802100%N); (176, 2, 0x802100%N); (179, 1, 0x800100%N); (180, 1, 0x800100%N)]
     [(8%N, 348); (23%N, 349)];
   mkst [(141, 4, 0xfdb0a2606918c24b130%N)]
     [];
   mkst [(157, 2, 0x120%N)]
     [(46%N, 350)];
   mkst [(140, 4, 0xfdb0a2606918c24b130%N)]
     [];
   mkst [(138, 4, 0xfdb0a2606918c24b130%N)]
     [];
   mkst [(0, 0, 0x2020e1d1210c325fcedc%N); (1, 0, 0x2020e1d1210c325fcedc%N); (2, 0, 0x2020e1d1210c325fcedc%N); (3, 0, 0x2020e1d1210c325fcedc%N); (4, 0, 0x2020e1d1210c325fcedc%N); (5, 0, 0x2020e1d1210c325fcedc%N); (6, 0, 0x2020e1d1210c325fcedc%N); (7, 0, 0x2020e1d1210c325fcedc%N); (8, 0, 0x2020e1d1210c325fcedc%N); (9, 0, 0x2020e1d1210c325fcedc%N); (10, 0, 0x2020e1d1210c325fcedc%N); (11, 0, 0x2020e1d1210c325fcedc%N); (12, 0, 0x2020e1d1210c325fcedc%N); (15, 0, 0x2020e0d02108325bcacc%N); (16, 0, 0x2020e0d02108325bcacc%N); (17, 0, 0x2020e0d02108325bcacc%N); (18, 0, 0x2020e0d02108325bcacc%N); (19, 0, 0x2020e0d02108325bcacc%N); (20, 0, 0x2020e0d02108325bcacc%N); (21, 0, 0x2020e0d02108325bcacc%N); (22, 0, 0x2020e0d02108325bcacc%N); (23, 0, 0x2020e0d02108325bcacc%N); (24, 0, 0xc0902100305b4acc%N); (25, 0, 0xc0902100305b4acc%N); (26, 0, 0xc0902100305b4acc%N); (27, 0, 0xc0902100305b4acc%N); (28, 0, 0xc0902100305b4acc%N); (29, 0, 0xc0902100305b4acc%N); (30, 0, 0xc0902100305b4288%N); (31, 0, 0xc0902100305b4288%N); (32, 0, 0xc0902100305b4288%N); (33, 0, 0xc0902100305b4008%N); (34, 0, 0xc0902100305b4008%N); (35, 0, 0xc0902100305b4008%N); (36, 0, 0x902100305b4008%N); (37, 0, 0x902100305b4008%N); (38, 0, 0x902100305b4008%N); (39, 0, 0x902100305b4008%N); (40, 0, 0x902100305b4008%N); (41, 0, 0x800100305a0008%N); (42, 0, 0x800100305a0008%N); (43, 0, 0x800100305a0008%N); (44, 0, 0x305a0008%N); (45, 0, 0x305a0008%N); (46, 0, 0x305a0000%N); (47, 0, 0x305a0000%N); (48, 0, 0x304a0000%N); (49, 0, 0x304a0000%N); (50, 0, 0x300a0000%N); (51, 0, 0x300a0000%N); (52, 0, 0x200a0000%N); (53, 0, 0x200a0000%N); (54, 0, 0x80000%N); (55, 0, 0x80000%N); (57, 0, 0x80000%N); (58, 0, 0x80000%N); (59, 0, 0x80000%N); (60, 0, 0x80000%N); (61, 0, 0x80000%N); (62, 0, 0x80000%N); (63, 0, 0x80000%N); (64, 0, 0x80000%N); (124, 0, 0x804080948070100005a%N); (125, 0, 0x804080948070100005a%N); (126, 0, 0x804080948070100005a%N); (135, 4, 0xfdb0a2606918c24b130%N); (148, 1, 0x804080948070100005a%N)]
     [(1%N, 1); (3%N, 2); (4%N, 3); (6%N, 4); (24%N, 7); (32%N, 12); (33%N, 13); (34%N, 14); (43%N, 19); (46%N, 21); (48%N, 23); (51%N, 26); (59%N, 30); (66%N, 34); (75%N, 42); (1000%N, 70); (1001%N, 69); (1003%N, 80); (1004%N, 47); (1005%N, 68); (1006%N, 44); (1007%N, 73); (1008%N, 71); (1009%N, 56); (1010%N, 45); (1011%N, 57); (1012%N, 63); (1013%N, 66); (1014%N, 67); (1015%N, 49); (1017%N, 351); (1037%N, 254)];
   mkst [(134, 4, 0xfdb0a2606918c24b130%N)]
     [];
   mkst [(0, 0, 0x2020e1d1210c325fcedc%N); (1, 0, 0x2020e1d1210c325fcedc%N); (2, 0, 0x2020e1d1210c325fcedc%N); (3, 0, 0x2020e1d1210c325fcedc%N); (4, 0, 0x2020e1d1210c325fcedc%N); (5, 0, 0x2020e1d1210c325fcedc%N); (6, 0, 0x2020e1d1210c325fcedc%N); (7, 0, 0x2020e1d1210c325fcedc%N); (8, 0, 0x2020e1d1210c325fcedc%N); (9, 0, 0x2020e1d1210c325fcedc%N); (10, 0, 0x2020e1d1210c325fcedc%N); (11, 0, 0x2020e1d1210c325fcedc%N); (12, 0, 0x2020e1d1210c325fcedc%N); (15, 0, 0x2020e0d02108325bcacc%N); (16, 0, 0x2020e0d02108325bcacc%N); (17, 0, 0x2020e0d02108325bcacc%N); (18, 0, 0x2020e0d02108325bcacc%N); (19, 0, 0x2020e0d02108325bcacc%N); (20, 0, 0x2020e0d02108325bcacc%N); (20, 1, 0x2020e0d02108325bcacc%N); (21, 0, 0x2020e0d02108325bcacc%N); (22, 0, 0x2020e0d02108325bcacc%N); (23, 0, 0x2020e0d02108325bcacc%N); (137, 4, 0xfdb0a2606918c24b130%N)]
     [(1%N, 1); (3%N, 2); (4%N, 81); (6%N, 4); (19%N, 352); (24%N, 7); (33%N, 13); (34%N, 14); (43%N, 19); (46%N, 21); (48%N, 23); (51%N, 26); (66%N, 34); (1000%N, 70); (1001%N, 69); (1003%N, 90)];
   mkst [(133, 4, 0xfdb0a2606918c24b130%N)]
     [];
   mkst [(0, 0, 0x2020e1d1210c325fcedc%N); (1, 0, 0x2020e1d1210c325fcedc%N); (2, 0, 0x2020e1d1210c325fcedc%N); (3, 0, 0x2020e1d1210c325fcedc%N); (4, 0, 0x2020e1d1210c325fcedc%N); (5, 0, 0x2020e1d1210c325fcedc%N); (6, 0, 0x2020e1d1210c325fcedc%N); (7, 0, 0x2020e1d1210c325fcedc%N); (8, 0, 0x2020e1d1210c325fcedc%N); (9, 0, 0x2020e1d1210c325fcedc%N); (10, 0, 0x2020e1d1210c325fcedc%N); (11, 0, 0x2020e1d1210c325fcedc%N); (12, 0, 0x2020e1d1210c325fcedc%N); (15, 0, 0x2020e0d02108325bcacc%N); (16, 0, 0x2020e0d02108325bcacc%N); (17, 0, 0x2020e0d02108325bcacc%N); (18, 0, 0x2020e0d02108325bcacc%N); (19, 0, 0x2020e0d02108325bcacc%N); (20, 0, 0x2020e0d02108325bcacc%N); (21, 0, 0x2020e0d02108325bcacc%N); (22, 0, 0x2020e0d02108325bcacc%N); (23, 0, 0x2020e0d02108325bcacc%N); (24, 0, 0xc0902100305b4acc%N); (25, 0, 0xc0902100305b4acc%N); (26, 0, 0xc0902100305b4acc%N); (27, 0, 0xc0902100305b4acc%N); (28, 0, 0xc0902100305b4acc%N); (29, 0, 0xc0902100305b4acc%N); (30, 0, 0xc0902100305b4288%N); (31, 0, 0xc0902100305b4288%N); (32, 0, 0xc0902100305b4288%N); (33, 0, 0xc0902100305b4008%N); (34, 0, 0xc0902100305b4008%N); (35, 0, 0xc0902100305b4008%N); (36, 0, 0x902100305b4008%N); (37, 0, 0x902100305b4008%N); (38, 0, 0x902100305b4008%N); (39, 0, 0x902100305b4008%N); (40, 0, 0x902100305b4008%N); (41, 0, 0x800100305a0008%N); (42, 0, 0x800100305a0008%N); (43, 0, 0x800100305a0008%N); (44, 0, 0x305a0008%N); (45, 0, 0x305a0008%N); (46, 0, 0x305a0000%N); (47, 0, 0x305a0000%N); (48, 0, 0x304a0000%N); (49, 0, 0x304a0000%N); (50, 0, 0x300a0000%N); (51, 0, 0x300a0000%N); (52, 0, 0x200a0000%N); (53, 0, 0x200a0000%N); (54, 0, 0x80000%N); (55, 0, 0x80000%N); (57, 0, 0x80000%N); (58, 0, 0x80000%N); (59, 0, 0x80000%N); (60, 0, 0x80000%N); (61, 0, 0x80000%N); (62, 0, 0x80000%N); (63, 0, 0x80000%N); (64, 0, 0x80000%N); (136, 4, 0xfdb0a2606918c24b130%N)]
     [(1%N, 1); (3%N, 2); (4%N, 3); (6%N, 4); (24%N, 7); (33%N, 13); (34%N, 14); (43%N, 19); (46%N, 21); (48%N, 23); (51%N, 26); (66%N, 34); (1000%N, 70); (1001%N, 69); (1003%N, 80); (1004%N, 47); (1005%N, 68); (1006%N, 44); (1007%N, 73); (1008%N, 71); (1009%N, 56); (1010%N, 45); (1011%N, 57); (1012%N, 63); (1013%N, 66); (1014%N, 67); (1015%N, 49); (1017%N, 353)];
   mkst [(132, 4, 0xfdb0a2606918c24b130%N)]
     [(19%N, 354)];
   mkst [(55, 5, 0x883120%N)]
     [];
   mkst [(14, 3, 0x120%N)]
     [];
   mkst [(113, 2, 0x2100%N)]
     [];
   mkst [(0, 0, 0xc191210430576fdc%N); (1, 0, 0xc191210430576fdc%N); (2, 0, 0xc191210430576fdc%N); (3, 0, 0xc191210430576fdc%N); (4, 0, 0xc191210430576fdc%N); (5, 0, 0xc191210430576fdc%N); (6, 0, 0xc191210430576fdc%N); (7, 0, 0xc191210430576fdc%N); (8, 0, 0xc191210430576fdc%N); (9, 0, 0xc191210430576fdc%N); (10, 0, 0xc191210430576fdc%N); (11, 0, 0xc191210430576fdc%N); (12, 0, 0xc191210430576fdc%N); (15, 0, 0xc090210030536bcc%N); (16, 0, 0xc090210030536bcc%N); (17, 0, 0xc090210030536bcc%N); (18, 0, 0xc090210030536bcc%N); (19, 0, 0xc090210030536bcc%N); (20, 0, 0xc090210030536bcc%N); (21, 0, 0xc090210030536bcc%N); (22, 0, 0xc090210030536bcc%N); (23, 0, 0xc090210030536bcc%N); (24, 0, 0xc090210030536bcc%N); (25, 0, 0xc090210030536bcc%N); (26, 0, 0xc090210030536bcc%N); (27, 0, 0xc090210030536bcc%N); (28, 0, 0xc090210030536bcc%N); (29, 0, 0xc090210030536bcc%N); (30, 0, 0xc090210030536388%N); (31, 0, 0xc090210030536388%N); (32, 0, 0xc090210030536388%N); (33, 0, 0xc090210030536108%N); (34, 0, 0xc090210030536108%N); (35, 0, 0xc090210030536108%N); (36, 0, 0x90210030536108%N); (37, 0, 0x90210030536108%N); (38, 0, 0x90210030536108%N); (39, 0, 0x90210030536108%N); (40, 0, 0x90210030536108%N); (41, 0, 0x80010030522108%N); (42, 0, 0x80010030522108%N); (43, 0, 0x80010030522108%N); (44, 0, 0x30522108%N); (45, 0, 0x30522108%N); (46, 0, 0x30522100%N); (47, 0, 0x30522100%N); (48, 0, 0x30422100%N); (49, 0, 0x30422100%N); (50, 0, 0x30022100%N); (51, 0, 0x30022100%N); (52, 0, 0x20022100%N); (53, 0, 0x20022100%N); (54, 0, 0x2100%N); (55, 0, 0x2100%N); (56, 0, 0x2100%N); (114, 2, 0x2100%N)]
     [(1%N, 1); (3%N, 2); (4%N, 3); (6%N, 4); (24%N, 7); (33%N, 13); (34%N, 14); (43%N, 19); (46%N, 21); (48%N, 23); (51%N, 26); (66%N, 34); (1000%N, 70); (1001%N, 69); (1003%N, 180); (1004%N, 47); (1005%N, 68); (1006%N, 44); (1007%N, 73); (1008%N, 71); (1009%N, 56); (1010%N, 45); (1011%N, 57); (1012%N, 63); (1013%N, 66); (1014%N, 67); (1015%N, 296); (1016%N, 355)];
   mkst [(111, 2, 0x2100%N); (112, 0, 0x2100%N); (113, 0, 0x2100%N); (114, 0, 0x2100%N); (128, 0, 0x3100%N); (129, 0, 0x3100%N); (130, 0, 0x43110%N); (131, 0, 0x43110%N); (132, 0, 0x43110%N); (133, 0, 0x43110%N); (134, 0, 0x43110%N); (135, 0, 0x43110%N); (136, 0, 0x43110%N); (137, 0, 0x43110%N); (138, 0, 0x43110%N); (139, 0, 0x43110%N); (140, 0, 0x43110%N); (141, 0, 0x43110%N); (142, 0, 0x43110%N); (143, 0, 0x400000000010%N); (144, 0, 0x400000000010%N); (145, 0, 0x400000000010%N); (146, 0, 0x400000000010%N)]
     [(4%N, 115); (6%N, 116); (12%N, 274); (46%N, 118); (1033%N, 356); (1039%N, 276); (1040%N, 121); (1041%N, 124)];
   mkst [(104, 3, 0xf930824049188800000%N)]
     [];
   mkst [(97, 5, 0xfdb0a2646918c043170%N)]
     [];
   mkst [(150, 3, 0x20%N)]
     [];
   mkst [(152, 3, 0x120%N)]
     [];
   mkst [(173, 4, 0x40130%N)]
     [];
   mkst [(169, 4, 0x40130%N)]
     [];
   mkst [(167, 4, 0x40130%N)]
     [];
   mkst [(118, 6, 0xfdb0a2646918c043170%N)]
     [];
   mkst [(205, 6, 0x1fdf1e2fded7cda0205b%N)]
     [];
   mkst [(0, 0, 0x2020e1d1210c3257efdc%N); (1, 0, 0x2020e1d1210c3257efdc%N); (2, 0, 0x2020e1d1210c3257efdc%N); (3, 0, 0x2020e1d1210c3257efdc%N); (4, 0, 0x2020e1d1210c3257efdc%N); (5, 0, 0x2020e1d1210c3257efdc%N); (6, 0, 0x2020e1d1210c3257efdc%N); (7, 0, 0x2020e1d1210c3257efdc%N); (8, 0, 0x2020e1d1210c3257efdc%N); (9, 0, 0x2020e1d1210c3257efdc%N); (10, 0, 0x2020e1d1210c3257efdc%N); (11, 0, 0x2020e1d1210c3257efdc%N); (12, 0, 0x2020e1d1210c3257efdc%N); (15, 0, 0x2020e0d021083253ebcc%N); (16, 0, 0x2020e0d021083253ebcc%N); (17, 0, 0x2020e0d021083253ebcc%N); (18, 0, 0x2020e0d021083253ebcc%N); (19, 0, 0x2020e0d021083253ebcc%N); (20, 0, 0x2020e0d021083253ebcc%N); (21, 0, 0x2020e0d021083253ebcc%N); (22, 0, 0x2020e0d021083253ebcc%N); (23, 0, 0x2020e0d021083253ebcc%N); (24, 0, 0xc090210030536bcc%N); (25, 0, 0xc090210030536bcc%N); (26, 0, 0xc090210030536bcc%N); (27, 0, 0xc090210030536bcc%N); (28, 0, 0xc090210030536bcc%N); (29, 0, 0xc090210030536bcc%N); (30, 0, 0xc090210030536388%N); (31, 0, 0xc090210030536388%N); (32, 0, 0xc090210030536388%N); (33, 0, 0xc090210030536108%N); (34, 0, 0xc090210030536108%N); (35, 0, 0xc090210030536108%N); (36, 0, 0x90210030536108%N); (37, 0, 0x90210030536108%N); (38, 0, 0x90210030536108%N); (39, 0, 0x90210030536108%N); (40, 0, 0x90210030536108%N); (41, 0, 0x80010030522108%N); (42, 0, 0x80010030522108%N); (43, 0, 0x80010030522108%N); (44, 0, 0x30522108%N); (45, 0, 0x30522108%N); (46, 0, 0x30522100%N); (47, 0, 0x30522100%N); (48, 0, 0x30422100%N); (49, 0, 0x30422100%N); (50, 0, 0x30022100%N); (51, 0, 0x30022100%N); (52, 0, 0x20022100%N); (53, 0, 0x20022100%N); (54, 0, 0x2100%N); (55, 0, 0x2100%N); (57, 0, 0x2100%N); (58, 0, 0x2100%N); (59, 0, 0x2100%N); (60, 0, 0x2100%N); (61, 0, 0x2100%N); (62, 0, 0x2100%N); (63, 0, 0x2100%N); (64, 0, 0x2100%N); (65, 0, 0x2100%N); (66, 0, 0x2100%N); (186, 0, 0x1fdf1e2fded7cda0205b%N); (187, 0, 0x1fdf1e2fded7cda0205b%N); (188, 0, 0x1fdf1e2fded7cda0205b%N); (189, 0, 0x1fdf1e2fded7cda0205b%N); (190, 0, 0x1fdf1e2fded7cda0205b%N); (191, 0, 0x1fdf1e2fded7cda0205b%N); (192, 0, 0x1fdf1e2fded7cda0205b%N); (193, 0, 0x1fdf1e2fded7cda0205b%N); (194, 0, 0x1fdf1e2fded7cda0205b%N); (195, 0, 0x1fdf1e2fded7cda0205b%N); (200, 0, 0x1fdf1e2fded7cda0205b%N); (201, 0, 0x1fdf1e2fded7cda0205b%N); (202, 0, 0x1fdf1e2fded7cda0205b%N); (203, 0, 0x1fdf1e2fded7cda0205b%N); (204, 0, 0x1fdf1e2fded7cda0205b%N); (205, 0, 0x1fdf1e2fded7cda0205b%N); (206, 0, 0x1fdf1e2fded7cda0205b%N); (206, 6, 0x1fdf1e2fded7cda0205b%N); (207, 0, 0x1fdf1e2fded7cda0205b%N); (208, 0, 0x1fdf1e2fded7cda0205b%N); (209, 0, 0x1fdf1e2fded7cda0205b%N)]
     [(1%N, 1); (3%N, 2); (4%N, 3); (6%N, 4); (13%N, 5); (21%N, 6); (24%N, 7); (30%N, 10); (33%N, 13); (34%N, 14); (43%N, 19); (44%N, 20); (46%N, 21); (47%N, 22); (48%N, 23); (51%N, 26); (58%N, 29); (60%N, 31); (66%N, 34); (76%N, 43); (1000%N, 70); (1001%N, 69); (1003%N, 80); (1004%N, 47); (1005%N, 68); (1006%N, 44); (1007%N, 73); (1008%N, 71); (1009%N, 56); (1010%N, 45); (1011%N, 57); (1012%N, 63); (1013%N, 66); (1014%N, 67); (1015%N, 49); (1017%N, 46); (1018%N, 58); (1055%N, 59); (1058%N, 357); (1059%N, 48); (1062%N, 72); (1063%N, 64); (1064%N, 65)];
   mkst [(203, 6, 0x1fdf1e2fded7cda0205b%N)]
     [];
   mkst [(0, 0, 0x2020e1d1210c3257efdc%N); (1, 0, 0x2020e1d1210c3257efdc%N); (2, 0, 0x2020e1d1210c3257efdc%N); (3, 0, 0x2020e1d1210c3257efdc%N); (4, 0, 0x2020e1d1210c3257efdc%N); (5, 0, 0x2020e1d1210c3257efdc%N); (6, 0, 0x2020e1d1210c3257efdc%N); (7, 0, 0x2020e1d1210c3257efdc%N); (8, 0, 0x2020e1d1210c3257efdc%N); (9, 0, 0x2020e1d1210c3257efdc%N); (10, 0, 0x2020e1d1210c3257efdc%N); (11, 0, 0x2020e1d1210c3257efdc%N); (12, 0, 0x2020e1d1210c3257efdc%N); (15, 0, 0x2020e0d021083253ebcc%N); (16, 0, 0x2020e0d021083253ebcc%N); (17, 0, 0x2020e0d021083253ebcc%N); (18, 0, 0x2020e0d021083253ebcc%N); (19, 0, 0x2020e0d021083253ebcc%N); (20, 0, 0x2020e0d021083253ebcc%N); (21, 0, 0x2020e0d021083253ebcc%N); (22, 0, 0x2020e0d021083253ebcc%N); (23, 0, 0x2020e0d021083253ebcc%N); (24, 0, 0xc090210030536bcc%N); (25, 0, 0xc090210030536bcc%N); (26, 0, 0xc090210030536bcc%N); (27, 0, 0xc090210030536bcc%N); (28, 0, 0xc090210030536bcc%N); (29, 0, 0xc090210030536bcc%N); (30, 0, 0xc090210030536388%N); (31, 0, 0xc090210030536388%N); (32, 0, 0xc090210030536388%N); (33, 0, 0xc090210030536108%N); (34, 0, 0xc090210030536108%N); (35, 0, 0xc090210030536108%N); (36, 0, 0x90210030536108%N); (37, 0, 0x90210030536108%N); (38, 0, 0x90210030536108%N); (39, 0, 0x90210030536108%N); (40, 0, 0x90210030536108%N); (41, 0, 0x80010030522108%N); (42, 0, 0x80010030522108%N); (43, 0, 0x80010030522108%N); (44, 0, 0x30522108%N); (45, 0, 0x30522108%N); (46, 0, 0x30522100%N); (47, 0, 0x30522100%N); (48, 0, 0x30422100%N); (49, 0, 0x30422100%N); (50, 0, 0x30022100%N); (51, 0, 0x30022100%N); (52, 0, 0x20022100%N); (53, 0, 0x20022100%N); (54, 0, 0x2100%N); (55, 0, 0x2100%N); (57, 0, 0x2100%N); (58, 0, 0x2100%N); (59, 0, 0x2100%N); (60, 0, 0x2100%N); (61, 0, 0x2100%N); (62, 0, 0x2100%N); (63, 0, 0x2100%N); (64, 0, 0x2100%N); (65, 0, 0x2100%N); (66, 0, 0x2100%N); (186, 0, 0x1fdf1e2fded7cda0205b%N); (187, 0, 0x1fdf1e2fded7cda0205b%N); (188, 0, 0x1fdf1e2fded7cda0205b%N); (189, 0, 0x1fdf1e2fded7cda0205b%N); (190, 0, 0x1fdf1e2fded7cda0205b%N); (191, 0, 0x1fdf1e2fded7cda0205b%N); (192, 0, 0x1fdf1e2fded7cda0205b%N); (193, 0, 0x1fdf1e2fded7cda0205b%N); (194, 0, 0x1fdf1e2fded7cda0205b%N); (195, 0, 0x1fdf1e2fded7cda0205b%N); (200, 0, 0x1fdf1e2fded7cda0205b%N); (201, 0, 0x1fdf1e2fded7cda0205b%N); (202, 0, 0x1fdf1e2fded7cda0205b%N); (203, 0, 0x1fdf1e2fded7cda0205b%N); (204, 0, 0x1fdf1e2fded7cda0205b%N); (204, 6, 0x1fdf1e2fded7cda0205b%N); (205, 0, 0x1fdf1e2fded7cda0205b%N); (206, 0, 0x1fdf1e2fded7cda0205b%N); (207, 0, 0x1fdf1e2fded7cda0205b%N); (208, 0, 0x1fdf1e2fded7cda0205b%N); (209, 0, 0x1fdf1e2fded7cda0205b%N)]
     [(1%N, 1); (3%N, 2); (4%N, 3); (6%N, 4); (13%N, 5); (21%N, 6); (24%N, 7); (30%N, 10); (33%N, 13); (34%N, 14); (43%N, 19); (44%N, 20); (46%N, 21); (47%N, 22); (48%N, 23); (51%N, 26); (58%N, 29); (60%N, 31); (66%N, 34); (76%N, 43); (1000%N, 70); (1001%N, 69); (1003%N, 80); (1004%N, 47); (1005%N, 68); (1006%N, 44); (1007%N, 73); (1008%N, 71); (1009%N, 56); (1010%N, 45); (1011%N, 57); (1012%N, 63); (1013%N, 66); (1014%N, 67); (1015%N, 49); (1017%N, 46); (1018%N, 58); (1055%N, 59); (1058%N, 358); (1059%N, 48); (1062%N, 72); (1063%N, 64); (1064%N, 65)];
   mkst [(0, 0, 0x2020e1d1210c3257efdc%N); (1, 0, 0x2020e1d1210c3257efdc%N); (2, 0, 0x2020e1d1210c3257efdc%N); (3, 0, 0x2020e1d1210c3257efdc%N); (4, 0, 0x2020e1d1210c3257efdc%N); (5, 0, 0x2020e1d1210c3257efdc%N); (6, 0, 0x2020e1d1210c3257efdc%N); (7, 0, 0x2020e1d1210c3257efdc%N); (8, 0, 0x2020e1d1210c3257efdc%N); (9, 0, 0x2020e1d1210c3257efdc%N); (10, 0, 0x2020e1d1210c3257efdc%N); (11, 0, 0x2020e1d1210c3257efdc%N); (12, 0, 0x2020e1d1210c3257efdc%N); (15, 0, 0x2020e0d021083253ebcc%N); (16, 0, 0x2020e0d021083253ebcc%N); (17, 0, 0x2020e0d021083253ebcc%N); (18, 0, 0x2020e0d021083253ebcc%N); (19, 0, 0x2020e0d021083253ebcc%N); (20, 0, 0x2020e0d021083253ebcc%N); (21, 0, 0x2020e0d021083253ebcc%N); (22, 0, 0x2020e0d021083253ebcc%N); (23, 0, 0x2020e0d021083253ebcc%N); (24, 0, 0xc090210030536bcc%N); (25, 0, 0xc090210030536bcc%N); (26, 0, 0xc090210030536bcc%N); (27, 0, 0xc090210030536bcc%N); (28, 0, 0xc090210030536bcc%N); (29, 0, 0xc090210030536bcc%N); (30, 0, 0xc090210030536388%N); (31, 0, 0xc090210030536388%N); (32, 0, 0xc090210030536388%N); (33, 0, 0xc090210030536108%N); (34, 0, 0xc090210030536108%N); (35, 0, 0xc090210030536108%N); (36, 0, 0x90210030536108%N); (37, 0, 0x90210030536108%N); (38, 0, 0x90210030536108%N); (39, 0, 0x90210030536108%N); (40, 0, 0x90210030536108%N); (41, 0, 0x80010030522108%N); (42, 0, 0x80010030522108%N); (43, 0, 0x80010030522108%N); (44, 0, 0x30522108%N); (45, 0, 0x30522108%N); (46, 0, 0x30522100%N); (47, 0, 0x30522100%N); (48, 0, 0x30422100%N); (49, 0, 0x30422100%N); (50, 0, 0x30022100%N); (51, 0, 0x30022100%N); (52, 0, 0x20022100%N); (53, 0, 0x20022100%N); (54, 0, 0x2100%N); (55, 0, 0x2100%N); (57, 0, 0x2100%N); (58, 0, 0x2100%N); (59, 0, 0x2100%N); (60, 0, 0x2100%N); (61, 0, 0x2100%N); (62, 0, 0x2100%N); (63, 0, 0x2100%N); (64, 0, 0x2100%N); (65, 0, 0x2100%N); (66, 0, 0x2100%N); (186, 0, 0x1fdf1e2fded7cda0205b%N); (187, 0, 0x1fdf1e2fded7cda0205b%N); (188, 0, 0x1fdf1e2fded7cda0205b%N); (189, 0, 0x1fdf1e2fded7cda0205b%N); (190, 0, 0x1fdf1e2fded7cda0205b%N); (191, 0, 0x1fdf1e2fded7cda0205b%N); (192, 0, 0x1fdf1e2fded7cda0205b%N); (193, 0, 0x1fdf1e2fded7cda0205b%N); (194, 0, 0x1fdf1e2fded7cda0205b%N); (195, 0, 0x1fdf1e2fded7cda0205b%N); (200, 0, 0x1fdf1e2fded7cda0205b%N); (201, 0, 0x1fdf1e2fded7cda0205b%N); (201, 6, 0x1fdf1e2fded7cda0205b%N); (202, 0, 0x1fdf1e2fded7cda0205b%N); (203, 0, 0x1fdf1e2fded7cda0205b%N); (204, 0, 0x1fdf1e2fded7cda0205b%N); (205, 0, 0x1fdf1e2fded7cda0205b%N); (206, 0, 0x1fdf1e2fded7cda0205b%N); (207, 0, 0x1fdf1e2fded7cda0205b%N); (208, 0, 0x1fdf1e2fded7cda0205b%N); (209, 0, 0x1fdf1e2fded7cda0205b%N)]
     [(1%N, 1); (3%N, 2); (4%N, 3); (6%N, 4); (13%N, 5); (21%N, 6); (24%N, 7); (30%N, 10); (33%N, 13); (34%N, 14); (43%N, 19); (44%N, 20); (46%N, 21); (47%N, 22); (48%N, 23); (51%N, 26); (58%N, 29); (60%N, 31); (66%N, 34); (76%N, 43); (1000%N, 70); (1001%N, 69); (1003%N, 80); (1004%N, 47); (1005%N, 68); (1006%N, 44); (1007%N, 73); (1008%N, 71); (1009%N, 56); (1010%N, 45); (1011%N, 57); (1012%N, 63); (1013%N, 66); (1014%N, 67); (1015%N, 49); (1017%N, 46); (1018%N, 58); (1055%N, 59); (1058%N, 359); (1059%N, 48); (1062%N, 72); (1063%N, 64); (1064%N, 65)];
   mkst [(185, 2, 0x48400%N)]
     [];
   mkst [(184, 2, 0x48400%N)]
     [(19%N, 360)];
   mkst [(178, 2, 0x800100%N)]
     [];
   mkst [(181, 2, 0x4000948060120005a%N)]
     [];
   mkst [(183, 2, 0x48400%N)]
     [];
   mkst [(0, 0, 0x2020e1d1210c32d7cfdc%N); (1, 0, 0x2020e1d1210c32d7cfdc%N); (2, 0, 0x2020e1d1210c32d7cfdc%N); (3, 0, 0x2020e1d1210c32d7cfdc%N); (4, 0, 0x2020e1d1210c32d7cfdc%N); (5, 0, 0x2020e1d1210c32d7cfdc%N); (6, 0, 0x2020e1d1210c32d7cfdc%N); (7, 0, 0x2020e1d1210c32d7cfdc%N); (8, 0, 0x2020e1d1210c32d7cfdc%N); (9, 0, 0x2020e1d1210c32d7cfdc%N); (10, 0, 0x2020e1d1210c32d7cfdc%N); (11, 0, 0x2020e1d1210c32d7cfdc%N); (12, 0, 0x2020e1d1210c32d7cfdc%N); (15, 0, 0x2020e0d0210832d3cbcc%N); (16, 0, 0x2020e0d0210832d3cbcc%N); (17, 0, 0x2020e0d0210832d3cbcc%N); (18, 0, 0x2020e0d0210832d3cbcc%N); (19, 0, 0x2020e0d0210832d3cbcc%N); (20, 0, 0x2020e0d0210832d3cbcc%N); (21, 0, 0x2020e0d0210832d3cbcc%N); (22, 0, 0x2020e0d0210832d3cbcc%N); (23, 0, 0x2020e0d0210832d3cbcc%N); (24, 0, 0xc090210030d34bcc%N); (25, 0, 0xc090210030d34bcc%N); (26, 0, 0xc090210030d34bcc%N); (27, 0, 0xc090210030d34bcc%N); (28, 0, 0xc090210030d34bcc%N); (29, 0, 0xc090210030d34bcc%N); (30, 0, 0xc090210030d34388%N); (31, 0, 0xc090210030d34388%N); (32, 0, 0xc090210030d34388%N); (33, 0, 0xc090210030d34108%N); (34, 0, 0xc090210030d34108%N); (35, 0, 0xc090210030d34108%N); (36, 0, 0x90210030d34108%N); (37, 0, 0x90210030d34108%N); (38, 0, 0x90210030d34108%N); (39, 0, 0x90210030d34108%N); (40, 0, 0x90210030d34108%N); (41, 0, 0x80010030d20108%N); (42, 0, 0x80010030d20108%N); (43, 0, 0x80010030d20108%N); (44, 0, 0x30d20108%N); (45, 0, 0x30d20108%N); (46, 0, 0x30d20100%N); (47, 0, 0x30d20100%N); (48, 0, 0x30c20100%N); (49, 0, 0x30c20100%N); (50, 0, 0x30820100%N); (51, 0, 0x30820100%N); (52, 0, 0x20820100%N); (53, 0, 0x20820100%N); (54, 0, 0x800100%N); (55, 0, 0x800100%N); (57, 0, 0x800100%N); (58, 0, 0x800100%N); (59, 0, 0x800100%N); (60, 0, 0x800100%N); (61, 0, 0x800100%N); (62, 0, 0x800100%N); (63, 0, 0x800100%N); (64, 0, 0x800100%N); (174, 0, 0x800100%N); (175, 0, 0x800100%N); (176, 0, 0x800100%N); (176, 3, 0x802100%N); (179, 2, 0x800100%N); (180, 2, 0x800100%N); (181, 0, 0x4000948060120005a%N); (182, 0, 0x48400%N); (183, 0, 0x48400%N); (184, 0, 0x48400%N); (185, 0, 0x48400%N)]
     [(1%N, 1); (3%N, 2); (4%N, 3); (6%N, 4); (10%N, 308); (18%N, 309); (21%N, 255); (23%N, 361); (24%N, 7); (33%N, 13); (34%N, 14); (43%N, 19); (46%N, 21); (48%N, 23); (51%N, 26); (66%N, 34); (1000%N, 70); (1001%N, 69); (1003%N, 80); (1004%N, 47); (1005%N, 68); (1006%N, 44); (1007%N, 73); (1008%N, 71); (1009%N, 56); (1010%N, 45); (1011%N, 57); (1012%N, 63); (1013%N, 66); (1014%N, 67); (1015%N, 49); (1017%N, 256); (1050%N, 363); (1052%N, 362); (1053%N, 312); (1054%N, 311)];
   mkst [(175, 3, 0x802100%N)]
     [];
   mkst [(157, 3, 0x120%N)]
     [];
   mkst [(135, 5, 0xfdb0a2606918c24b130%N)]
     [(19%N, 364)];
   mkst [(137, 5, 0xfdb0a2606918c24b130%N)]
     [];
   mkst [(136, 5, 0xfdb0a2606918c24b130%N)]
     [(19%N, 365)];
   mkst [(132, 5, 0xfdb0a2606918c24b130%N)]
     [];
   mkst [(114, 3, 0x2100%N)]
     [];
   mkst [(111, 3, 0x2100%N)]
     [];
   mkst [(206, 7, 0x1fdf1e2fded7cda0205b%N)]
     [];
   mkst [(204, 7, 0x1fdf1e2fded7cda0205b%N)]
     [];
   mkst [(201, 7, 0x1fdf1e2fded7cda0205b%N)]
     [];
   mkst [(184, 3, 0x48400%N)]
     [];
   mkst [(176, 4, 0x802100%N)]
     [];
   mkst [(0, 0, 0x2020e1d1210c32d7cfdc%N); (1, 0, 0x2020e1d1210c32d7cfdc%N); (2, 0, 0x2020e1d1210c32d7cfdc%N); (3, 0, 0x2020e1d1210c32d7cfdc%N); (4, 0, 0x2020e1d1210c32d7cfdc%N); (5, 0, 0x2020e1d1210c32d7cfdc%N); (6, 0, 0x2020e1d1210c32d7cfdc%N); (7, 0, 0x2020e1d1210c32d7cfdc%N); (8, 0, 0x2020e1d1210c32d7cfdc%N); (9, 0, 0x2020e1d1210c32d7cfdc%N); (10, 0, 0x2020e1d1210c32d7cfdc%N); (11, 0, 0x2020e1d1210c32d7cfdc%N); (12, 0, 0x2020e1d1210c32d7cfdc%N); (15, 0, 0x2020e0d0210832d3cbcc%N); (16, 0, 0x2020e0d0210832d3cbcc%N); (17, 0, 0x2020e0d0210832d3cbcc%N); (18, 0, 0x2020e0d0210832d3cbcc%N); (19, 0, 0x2020e0d0210832d3cbcc%N); (20, 0, 0x2020e0d0210832d3cbcc%N); (21, 0, 0x2020e0d0210832d3cbcc%N); (22, 0, 0x2020e0d0210832d3cbcc%N); (23, 0, 0x2020e0d0210832d3cbcc%N); (24, 0, 0xc090210030d34bcc%N); (25, 0, 0xc090210030d34bcc%N); (26, 0, 0xc090210030d34bcc%N); (27, 0, 0xc090210030d34bcc%N); (28, 0, 0xc090210030d34bcc%N); (29, 0, 0xc090210030d34bcc%N); (30, 0, 0xc090210030d34388%N); (31, 0, 0xc090210030d34388%N); (32, 0, 0xc090210030d34388%N); (33, 0, 0xc090210030d34108%N); (34, 0, 0xc090210030d34108%N); (35, 0, 0xc090210030d34108%N); (36, 0, 0x90210030d34108%N); (37, 0, 0x90210030d34108%N); (38, 0, 0x90210030d34108%N); (39, 0, 0x90210030d34108%N); (40, 0, 0x90210030d34108%N); (41, 0, 0x80010030d20108%N); (42, 0, 0x80010030d20108%N); (43, 0, 0x80010030d20108%N); (44, 0, 0x30d20108%N); (45, 0, 0x30d20108%N); (46, 0, 0x30d20100%N); (47, 0, 0x30d20100%N); (48, 0, 0x30c20100%N); (49, 0, 0x30c20100%N); (50, 0, 0x30820100%N); (51, 0, 0x30820100%N); (52, 0, 0x20820100%N); (53, 0, 0x20820100%N); (54, 0, 0x800100%N); (55, 0, 0x800100%N); (57, 0, 0x800100%N); (58, 0, 0x800100%N); (59, 0, 0x800100%N); (60, 0, 0x800100%N); (61, 0, 0x800100%N); (62, 0, 0x800100%N); (63, 0, 0x800100%N); (64, 0, 0x800100%N); (174, 0, 0x800100%N); (175, 0, 0x800100%N); (176, 0, 0x800100%N); (180, 3, 0x800100%N)]
     [(1%N, 1); (3%N, 2); (4%N, 3); (6%N, 4); (21%N, 255); (24%N, 7); (33%N, 13); (34%N, 14); (43%N, 19); (46%N, 21); (48%N, 23); (51%N, 26); (66%N, 34); (1000%N, 70); (1001%N, 69); (1003%N, 80); (1004%N, 47); (1005%N, 68); (1006%N, 44); (1007%N, 73); (1008%N, 71); (1009%N, 56); (1010%N, 45); (1011%N, 57); (1012%N, 63); (1013%N, 66); (1014%N, 67); (1015%N, 49); (1017%N, 256); (1050%N, 366)];
   mkst [(179, 3, 0x800100%N)]
     [];
   mkst [(135, 6, 0xfdb0a2606918c24b130%N)]
     [];
   mkst [(136, 6, 0xfdb0a2606918c24b130%N)]
     [];
   mkst [(180, 4, 0x800100%N)]
     []].
Lemma cscript_checked : check CSCRIPT_T cscript_terminals cscript_states cscript_firsts = true.
Proof. vm_compute. reflexivity. Qed.
(** The last tokens of the nonterminals, and the tokens that can follow the terminals (from number 0). *)
Definition repl_lasts : list N :=
  [303469504233504; 338671056715808; 338671056715808; 338671056715808; 338671056715808; 338671056715808; 338671056715808; 338671056715808; 338671056715808; 338671056715808; 338671056715808; 338671056715808; 338671056715808; 338671056715808; 338671056715808; 338671056715808; 338671056715808; 338671056715808; 338671056715808; 8192; 2183112270137603915776; 2183112270137603915776; 338671065104416; 338671065104416; 41523189663934709760; 960961360588347277312; 17592194433024; 156797324626531188736; 8192; 8192; 2141589010104925028352; 2141589010104925028352; 338671056715808; 338671056715808; 17592194433024; 338671056715808; 338671056715808; 1180627649516577751040; 70368744177664; 17592186568736; 17592186568736; 1180627649516577751104; 1180627649516577751040; 2183112270275043393632; 2183112270137604440160; 2183112270137604440160; 17592186044416; 2141589010104925552736; 1180627649516578275424; 524320; 338671065104416; 338671065104416; 32768; 17592186568704; 17592186568704; 8192; 17600775987200; 17600775987200; 0; 0; 0; 0; 0; 0; 0; 0; 0; 0; 0; 0]%N.
Definition repl_nexts : list N :=
  [0; 2306181680286662746; 2306181680286662746; 2306181680286662746; 2342215759127105503354; 2382456905276795650046; 1182933831196865200506; 2306181680286662746; 2342215759264554947674; 2306181680286662746; 17592186044416; 2306181680286662746; 2306181680286662746; 2342215759135703703642; 2306181680286662746; 2306181680288759898; 2306181680286662746; 2306181680286662746; 1187545517215292325978; 2380150758798060945404; 2306181680286662746; 2300692499094428714074; 2306181680286662746; 2339909595039013286256; 2306181680286662746; 2306181680286662746; 2339909595039004893552; 2339909595039004897648; 2306181680286662746; 2306181680286662746; 2339909595039004897648; 2342215759127106040186; 2380150758798060945404; 2342215759135695315034; 2382456905276795650046; 2306181680286662746; 2339909595039004897648; 32; 17592188141568; 2306181680286662746; 2339909595039004893552; 2339909595039004897648; 2380150758798060945404; 2306181680286662746; 4722366482732206260222; 2382456905276795650046; 2339909595039004893552; 2339909595039004897648; 2380150758798060945404; 2306181680286662746; 2339909595039004897648; 2306181680286662746; 2306181680286662746; 17592186044416; 2339909595039004893552; 2342215759127106040186; 2306181680286662746; 2306181680286662746; 2306181680286662746; 2339909595039004897648; 2339909595039004897648; 2306181680286662746; 2342215759127105511802; 17592188141568; 2306181680286662746; 2339909595039004893552; 2339909595039004897648; 17592188141568; 2339909595039004897648; 2339909595039004897648; 2342215759127106040186; 2306181680286662746]%N.
(** The last tokens of the nonterminals, and the tokens that can follow the terminals (from number 0). *)
Definition cscript_lasts : list N :=
  [2330973240819744; 2612465397923872; 2612465397923872; 2612465397923872; 2612465397923872; 2612465397923872; 2612465397923872; 2612465397923872; 2612465397923872; 2612465397923872; 2612465397923872; 2612465397923872; 2612465397923872; 2612465397923872; 2612465397923872; 2612465397923872; 2612465397923872; 2612465397923872; 2612465397923872; 8192; 69858551156168751841280; 69858551156168751841280; 2612465406312480; 2612465406312480; 1328309690694253936640; 30750732578810784382976; 70368752566272; 5017514388048998039552; 8192; 8192; 68530240902524544483328; 68530240902524544483328; 2612465397923872; 2612465397923872; 70368752566272; 2612465397923872; 2612465397923872; 37779508323713760100352; 562949953421312; 70368744701984; 70368744701984; 37779508323713760100416; 37779508323713760100352; 69858551156306191319136; 69858551156168752365664; 69858551156168752365664; 70368744177664; 68530240902524545007712; 37779508323713760624736; 524320; 2612465406312480; 2612465406312480; 32768; 70368744701952; 70368744701952; 8192; 0; 0; 8396800; 8388608; 8396800; 8396800; 8396800; 8396800; 8192; 8396800; 8388608; 8192; 8396800; 8396800]%N.
Definition cscript_nexts : list N :=
  [0; 73789588760252383322; 73789588760252383322; 73789588760252383322; 74949855063159005782138; 302231454903244976816126; 37853297912474013270394; 73789588760252383322; 74949855063296455218266; 73789588760252383322; 70368744177664; 73789588760252383322; 73789588760252383322; 150509160099559724032122; 73789588760252383322; 73789588760254480474; 73789588760252383322; 73789588760252383322; 38000871865063689420890; 226598360559851050893308; 73789588760252383322; 150509160099284846388314; 73789588760252383322; 150509160099559724298618; 73789588760252383322; 73789588760252383322; 74876065544767497576816; 74876065544767497580912; 73789588760252383322; 73789588760252383322; 8192; 74876065544767497580912; 74949855063159006310778; 151722295085452295667708; 151796084392720391471102; 73789588760252383322; 74876065544767497580912; 32; 75633094624886084608090; 70368746274816; 73789588760252383322; 74876065544767497576816; 74876065544767497580912; 151722295085452295667708; 16; 73789588760252383322; 226598360630219795070972; 16; 151796084392720391471102; 74876065544767497576816; 74876065544767497580912; 151722295085452295667708; 73789588760252383322; 74876065544767497580912; 73789588760252383322; 73789588760252383322; 70368744177664; 74876065544767497576816; 8192; 74949855063159006310778; 73789588760252391514; 73789588760252383322; 73789588760252383322; 73789588760252383322; 74876065544767497580912; 74876065544767497580912; 73789588760252383322; 74949855063159005782394; 70368746274816; 73789588760252383322; 74876065544767497576816; 74876065544767497580912; 70368746274816; 74876065544767497580912; 74876065544767497580912; 74949855063159006310778; 16; 73789588760252383322]%N.
